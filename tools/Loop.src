(** Simulations of the models of the package. *)
From Coq Require Import String QArith Qcanon Qreals Reals List Bool Arith Lra Lia.
From Coq Require ClassicalEpsilon.
From Verif Require Import Base Num DictLemmas R2 SeqModel GeoModel DataModel DataSpec DataProofs DataMain LaneModel BodyModel BodySpec BodyMain DynModel DynSpec DynProofs DynMain DrawModel CollModel CollSpec CollProofs CollMain BuildModel BuildSpec BuildMain ImpactModel ImpactSpec ImpactMain SimulatorModel SimulatorSpec SimulatorWorld SimulatorProofs SimulatorProofs5 SimulatorProofs6 SimulatorProofs7 SimulatorMain LoopModel LoopSpec LoopProofs.
Import ListNotations.
Open Scope R_scope.
Local Open Scope string_scope.
Local Arguments aget {K V} eqb d k : simpl nomatch.
Local Arguments aset {K V} eqb d k v : simpl nomatch.
(* BODY *)

(** ** C122  update on arrays *)

Lemma from_reads k z o : from_array (state_class k) z = Ok o ->
  List.length z = List.length (c_idx (state_class k)) /\ instance_of (state_class k) o /\ forall f i, In (f, i) (c_idx (state_class k)) -> has o f (nth i z 0).
Proof.
  unfold from_array. destruct (Nat.eqb _ _) eqn:E; [|discriminate]. apply Nat.eqb_eq in E. intro H. split; [symmetry; exact E|].
  destruct k; cbn in E;
  repeat (let r := fresh "r" in destruct z as [|r z]; [discriminate E|]); (destruct z; [|discriminate E]); clear E; cbn in H; apply OI in H; subst o;
  (split; [|intros f i I; cbn in I; repeat (destruct I as [I|I]; [injection I as <- <-; reflexivity|]); destruct I]).
  - apply (inst_mk cVehicleState [r; r0; r1; r2; r3]); [nolights|reflexivity].
  - apply (inst_mk cVehicleStateDyn [r; r0; r1; r2; r5; r3; r4]); [nolights|reflexivity].
  - apply (inst_mk cPedestrianState [r; r0; r1; r2; r3; r4]); [nolights|reflexivity].
  - apply (inst_mk cDiffDriveState [r; r0; r1]); [nolights|reflexivity].
  - apply (inst_mk cSpacecraftState [r; r0; r1; r2; r3; r4]); [nolights|reflexivity].
  - apply (inst_mk cDynObstacleState [r; r0; r1; r2; r3; r4]); [nolights|reflexivity].
  - apply (inst_mk cRocketState [r; r0; r1; r2; r3; r4; r5; r6]); [nolights|reflexivity].
  - apply (inst_mk cSpaceshipState [r; r0; r1; r2; r3; r4; r5; r6]); [nolights|reflexivity].
Qed.

Lemma array_reads k o z : as_ndarray (state_class k) o = Ok z -> List.length z = List.length (c_idx (state_class k)) /\ forall f i, In (f, i) (c_idx (state_class k)) -> has o f (nth i z 0).
Proof.
  unfold as_ndarray, has. destruct k; cbn;
  repeat (match goal with |- context [getattr o ?f] => let E := fresh "E" in destruct (getattr o f) as [[?r|?]|] eqn:E; cbn; try discriminate end);
  intro H; apply OI in H; subst z; (split; [reflexivity|]); intros f i I; repeat (destruct I as [I|I]; [injection I as <- <-; assumption|]); destruct I.
Qed.

Lemma bind_Ok {A B} (r : result A) (f : A -> result B) b : DataModel.bind r f = Ok b -> exists a, r = Ok a /\ f a = Ok b.
Proof. destruct r; [eauto|discriminate]. Qed.

Lemma base_bind_Ok {A B} (r : result A) (f : A -> result B) b : bind r f = Ok b -> exists a, r = Ok a /\ f a = Ok b.
Proof. destruct r; [eauto|discriminate]. Qed.

Ltac chop H := repeat (let a := fresh "a" in let E := fresh "E" in first [apply base_bind_Ok in H as (a & E & H)|apply bind_Ok in H as (a & E & H)]).

Lemma update_reads solve m u dt m' : model_update solve m u dt = Ok m' -> exists x0 u0 y, as_ndarray (state_class (mo_kind m)) (mo_state m) = Ok x0 /\ as_ndarray (command_class (mo_kind m)) u = Ok u0 /\
  solve (ivp_rates m) dt (x0 ++ u0)%list = Ok y /\ from_array (state_class (mo_kind m)) (firstn (List.length (c_idx (state_class (mo_kind m)))) y) = Ok (mo_state m') /\ m' = set_state m (mo_state m').
Proof.
  unfold model_update. intro H. chop H. apply OI in H. unfold stateactions_from_array in E2. chop E2. apply OI in E2. subst m' a2. cbn [fst set_state mo_state]. exists a, a0, a1. auto 10.
Qed.

(** update does not change anything but the state, which is then an object of the class
    of the states of the model. *)
Theorem C122_frame : forall solve m u dt m', model_update solve m u dt = Ok m' ->
  same_make m m' /\ mo_collided m' = mo_collided m /\ instance_of (state_class (mo_kind m)) (mo_state m').
Proof.
  intros solve m u dt m' H. apply update_reads in H as (x0 & u0 & y & _ & _ & _ & F & ->). cbn [set_state mo_state] in *.
  split; [repeat split|]. split; [reflexivity|]. apply from_reads in F as (_ & I & _). exact I.
Qed.

Lemma rk_comb_hom {Y Z} (h : Y -> Z) addY scaleY addZ scaleZ : (forall a b, h (addY a b) = addZ (h a) (h b)) -> (forall k a, h (scaleY k a) = scaleZ k (h a)) ->
  forall cs ks y k, h (rk_comb addY scaleY y k cs ks) = rk_comb addZ scaleZ (h y) k cs (map h ks).
Proof.
  intros HA HS cs. unfold rk_comb. induction cs as [|c cs IH]; intros [|x ks] y k; cbn [combine map fold_left]; try reflexivity. rewrite IH, HA, HS. reflexivity.
Qed.

Lemma rk_stages_hom {Y Z} (h : Y -> Z) addY scaleY addZ scaleZ fY fZ : (forall a b, h (addY a b) = addZ (h a) (h b)) -> (forall k a, h (scaleY k a) = scaleZ k (h a)) ->
  (forall y, fZ (h y) = option_map h (fY y)) -> forall rows ks y k, rk_stages addZ scaleZ fZ (h y) k rows (map h ks) = option_map (map h) (rk_stages addY scaleY fY y k rows ks).
Proof.
  intros HA HS HF rows. induction rows as [|r rows IH]; intros ks y k; cbn [rk_stages]; [reflexivity|].
  rewrite <- (rk_comb_hom h addY scaleY addZ scaleZ HA HS), HF. destruct (fY _) as [v|]; cbn [option_map]; [|reflexivity].
  replace (map h ks ++ [h v])%list with (map h (ks ++ [v])) by (rewrite map_app; reflexivity). apply IH.
Qed.

Lemma rk_solve_hom {Y Z} (h : Y -> Z) addY scaleY addZ scaleZ fY fZ : (forall a b, h (addY a b) = addZ (h a) (h b)) -> (forall k a, h (scaleY k a) = scaleZ k (h a)) ->
  (forall y, fZ (h y) = option_map h (fY y)) -> forall tab hs y, rk_solve addZ scaleZ fZ tab (h y) hs = option_map h (rk_solve addY scaleY fY tab y hs).
Proof.
  intros HA HS HF tab hs. induction hs as [|k hs IH]; intro y; cbn [rk_solve]; [reflexivity|]. unfold rk_step.
  pose proof (rk_stages_hom h addY scaleY addZ scaleZ fY fZ HA HS HF (fst tab) [] y k) as E. cbn [map] in E. rewrite E. destruct (rk_stages addY scaleY fY y k (fst tab) []) as [ks|]; cbn [option_map]; [|reflexivity].
  rewrite <- (rk_comb_hom h addY scaleY addZ scaleZ HA HS). apply IH.
Qed.

Lemma array_add_app a b c d : List.length a = List.length b -> array_add (a ++ c)%list (b ++ d)%list = (array_add a b ++ array_add c d)%list.
Proof.
  unfold array_add. revert b. induction a as [|x a IH]; intros [|y b] L; try discriminate; [reflexivity|]. injection L as L. cbn. rewrite IH by exact L. reflexivity.
Qed.

Lemma refine {X U} (P : plant X U) (ax : X -> list R) (au : U -> list R) (ox : X -> obj) n m u u0 x tab hs dt :
  (forall a, List.length (ax a) = n) -> (forall a b, ax (p_addX P a b) = array_add (ax a) (ax b)) -> (forall k a, ax (p_scaleX P k a) = array_scale k (ax a)) ->
  (forall a b, au (p_addU P a b) = array_add (au a) (au b)) -> (forall k a, au (p_scaleU P k a) = array_scale k (au a)) ->
  (forall y v, match p_dynamics P (mo_collided m) x y (if p_ignore P (mo_collided m) then p_zero P else v) with Some dx => ivp_rates m (ax y ++ au v)%list = Ok (ax dx ++ au (p_scaleU P 0 v))%list | None => exists e, ivp_rates m (ax y ++ au v)%list = Err e end) ->
  as_ndarray (state_class (mo_kind m)) (mo_state m) = Ok (ax x) -> as_ndarray (command_class (mo_kind m)) u = Ok (au u0) ->
  (forall y v, exists w, stateactions_from_array m (ax y ++ au v)%list = Ok (ox y, w)) ->
  moves_to m (option_map ox (DynModel.update P tab (mo_collided m) x u0 hs)) (model_update (rk_array tab hs) m u dt).
Proof.
  intros LN AX SX AU SU F IX IU S. unfold model_update. rewrite IX, IU. cbn [bind]. unfold rk_array, DynModel.update.
  set (fn := fun y : X * U => match p_dynamics P (mo_collided m) x (fst y) _ with Some dx => Some (dx, _) | None => None end).
  pose proof (rk_solve_hom (fun y : X * U => (ax (fst y) ++ au (snd y))%list) (fun a b => (p_addX P (fst a) (fst b), p_addU P (snd a) (snd b))) (fun k a => (p_scaleX P k (fst a), p_scaleU P k (snd a))) array_add array_scale fn
    (fun y => match ivp_rates m y with Ok r => Some r | Err _ => None end)) as H.
  cbn [fst snd] in H. assert (H' := H ltac:(intros a b; rewrite AX, AU; symmetry; apply array_add_app; rewrite !LN; reflexivity) ltac:(intros k a; rewrite SX, SU; unfold array_scale; rewrite map_app; reflexivity)). clear H.
  assert (H := H' ltac:(intros [y v]; unfold fn; cbn [fst snd]; specialize (F y v); destruct (p_dynamics _ _ _ _ _); [rewrite F; reflexivity|destruct F as [e ->]; reflexivity]) tab hs (x, u0)). clear H'. cbn [fst snd] in H. rewrite H. clear H.
  destruct (rk_solve _ _ fn tab (x, u0) hs) as [[y v]|]; cbn [option_map moves_to fst snd bind]; [|reflexivity]. destruct (S y v) as [w ->]. reflexivity.
Qed.

Definition arr5 (x : vst) := [v_x x; v_y x; v_psi x; v_vx x; v_delta x].

Definition arr7 (x : dst) := [d_x x; d_y x; d_psi x; d_vx x; d_vy x; d_dpsi x; d_delta x].

Definition arr6 (x : st6) := [s_x x; s_y x; s_psi x; s_vx x; s_vy x; s_dpsi x].

Definition arr8 (x : st8) := [r_x x; r_y x; r_psi x; r_vx x; r_vy x; r_dpsi x; r_ang x; r_m x].

Definition arr3 (x : st3) := [w_x x; w_y x; w_psi x].

Definition arrv (u : vcm) := [c_acc u; c_ddelta u].

Definition arrp (u : pcm) := [pc_acc u; pc_dpsi u].

Definition arrw (u : wcm) := [wc_l u; wc_r u].

Definition arrs (u : scm) := [sc_l u; sc_r u].

Definition arro (u : ocm) := [oc_x u; oc_y u; oc_psi u].

Definition arrr (u : rcm) := [rc_l u; rc_r u; rc_dphi u].

Definition arrh (u : ssc) := [ss_thrust u; ss_ddelta u].

Lemma rates_vehicle m vx acc d dd g x u : mo_kind m = KVehicle -> mo_params m = PVehicle vx acc d dd -> as_vgeo (mo_geo m) = Ok g ->
  ivp_rates m (arr5 x ++ arrv u)%list = Ok (arr5 (vehicle_dynamics g (mkVPR (as_mparams vx acc) d dd) x (if ignores m then mkVCm 0 0 else u)) ++ [0; 0])%list.
Proof.
  intros K P G. unfold ivp_rates, stateactions_from_array, dynamics. rewrite K, P, G. destruct x, u, (ignores m); cbn -[vehicle_dynamics]; reflexivity.
Qed.

Lemma rates_dyn m vx acc d dd g pf pr self x u : mo_kind m = KVehicleDyn -> mo_params m = PVehicle vx acc d dd -> as_vgeo (mo_geo m) = Ok g -> mo_tyres m = Some (pf, pr) -> to_dst (mo_state m) = Ok self ->
  match vehicle_dyn_dynamics g (mkVPR (as_mparams vx acc) d dd) pf pr (mo_collided m) self x (if ignores m then mkVCm 0 0 else u) with
  | Some dx => ivp_rates m (arr7 x ++ arrv u)%list = Ok (arr7 dx ++ [0; 0])%list
  | None => exists e, ivp_rates m (arr7 x ++ arrv u)%list = Err e
  end.
Proof.
  intros K P G T S. unfold ivp_rates, stateactions_from_array, dynamics. rewrite K, P, G, T, S. destruct x, u, (ignores m); cbn -[vehicle_dyn_dynamics]; (destruct (vehicle_dyn_dynamics _ _ _ _ _ _ _ _) as [dx|]; [reflexivity|eexists; reflexivity]).
Qed.

Lemma rates_pedestrian m vx acc w self x u : mo_kind m = KPedestrian -> mo_params m = PPedestrian vx acc w -> to_st6 cPedestrianState (mo_state m) = Ok self ->
  ivp_rates m (arr6 x ++ arrp u)%list = Ok (arr6 (pedestrian_dynamics (mkPP (as_mparams vx acc) w) (mo_collided m) self x (if ignores m then mkPC 0 0 else u)) ++ [0; 0])%list.
Proof.
  intros K P S. unfold ivp_rates, stateactions_from_array, dynamics. rewrite K, P, S. destruct x, u, (ignores m); cbn -[pedestrian_dynamics]; reflexivity.
Qed.

Lemma rates_diff m vx acc om t wb wr rad x u : mo_kind m = KDiffDrive -> mo_params m = PDiffDrive vx acc om -> ge_body (mo_geo m) = GDiffDrive t wb wr rad ->
  ivp_rates m (arr3 x ++ arrw u)%list = Ok (arr3 (diff_drive_dynamics wb wr (fst om) (snd om) x (if ignores m then mkWC 0 0 else u)) ++ [0; 0])%list.
Proof.
  intros K P G. unfold ivp_rates, stateactions_from_array, dynamics. rewrite K, P, G. destruct x, u, (ignores m); cbn -[diff_drive_dynamics]; reflexivity.
Qed.

Lemma rates_spacecraft m vx acc w g t ms iz x u : mo_kind m = KSpacecraft -> mo_params m = PSpacecraft vx acc w -> ge_body (mo_geo m) = GSpacecraft g t -> ge_m (mo_geo m) = Some ms -> ge_Iz (mo_geo m) = Some iz ->
  ivp_rates m (arr6 x ++ arrs u)%list = Ok (arr6 (spacecraft_dynamics (as_mparams vx acc) (fst w) (snd w) (sg_w_half g) ms iz x (if ignores m then mkSC 0 0 else u)) ++ [0; 0])%list.
Proof.
  intros K P G M I. unfold ivp_rates, stateactions_from_array, dynamics. rewrite K, P, G, M, I. destruct x, u, (ignores m); cbn -[spacecraft_dynamics]; reflexivity.
Qed.

Lemma rates_obstacle m vx acc w ddp x u : mo_kind m = KDynObstacle -> mo_params m = PObstacle vx acc w ddp ->
  ivp_rates m (arr6 x ++ arro u)%list = Ok (arr6 (obstacle_dynamics (as_mparams vx acc) (fst w) (snd w) x u) ++ [0; 0; 0])%list.
Proof.
  intros K P. unfold ivp_rates, stateactions_from_array, dynamics, ignores. rewrite K, P. destruct x, u; cbn -[obstacle_dynamics]; reflexivity.
Qed.

Lemma rates_rocket m vx acc mv ct F d dd g t iz x u : mo_kind m = KRocket -> mo_params m = PRocket vx acc mv ct F d dd -> ge_body (mo_geo m) = GRocket g t -> ge_Iz (mo_geo m) = Some iz ->
  ivp_rates m (arr8 x ++ arrr u)%list = Ok (arr8 (rocket_dynamics (mkRP mv ct (fst F) (snd F) (fst d) (snd d) (fst dd) (snd dd)) iz (rg_l_m g) x (if ignores m then mkRC 0 0 0 else u)) ++ [0; 0; 0])%list.
Proof.
  intros K P G I. unfold ivp_rates, stateactions_from_array, dynamics. rewrite K, P, G, I. destruct x, u, (ignores m); cbn -[rocket_dynamics]; reflexivity.
Qed.

Lemma rates_spaceship m vx acc mv ct F d dd g t iz x u : mo_kind m = KSpaceship -> mo_params m = PSpaceship vx acc mv ct F d dd -> ge_body (mo_geo m) = GSpaceship g t -> ge_Iz (mo_geo m) = Some iz ->
  ivp_rates m (arr8 x ++ arrh u)%list = Ok (arr8 (spaceship_dynamics (mkRP mv ct (fst F) (snd F) (fst d) (snd d) (fst dd) (snd dd)) iz (hg_l_r g) x (if ignores m then mkSSC 0 0 else u)) ++ [0; 0])%list.
Proof.
  intros K P G I. unfold ivp_rates, stateactions_from_array, dynamics. rewrite K, P, G, I. destruct x, u, (ignores m); cbn -[spaceship_dynamics]; reflexivity.
Qed.

Lemma same_vehicle_as g v : same_vehicle g v -> as_vgeo g = Ok v.
Proof.
  intros (M & I & t & T & B). unfold as_vgeo. rewrite M, I, B. destruct v as [ty m iz w lf lr cd ad cf cr h]. cbn in *. destruct ty; try discriminate T; injection T as <-; reflexivity.
Qed.

Lemma same_vehicle_ignores m v : mo_kind m = KVehicle \/ mo_kind m = KVehicleDyn -> same_vehicle (mo_geo m) v -> ignores m = mo_collided m && negb (vtype_eqb (vg_type v) CAR).
Proof.
  intros K (M & I & t & T & B). unfold ignores. rewrite B. destruct v as [ty ms iz w lf lr cd ad cf cr h]. cbn in *. destruct K as [-> | ->], ty; try discriminate T; injection T as <-; reflexivity.
Qed.

Lemma has2 c o f g a b : c_as c = [f; g] -> has o f a -> has o g b -> as_ndarray c o = Ok [a; b].
Proof. unfold has, as_ndarray. intros -> A B. cbn. rewrite A, B. reflexivity. Qed.

Lemma has3 c o f g h a b d : c_as c = [f; g; h] -> has o f a -> has o g b -> has o h d -> as_ndarray c o = Ok [a; b; d].
Proof. unfold has, as_ndarray. intros -> A B D. cbn. rewrite A, B, D. reflexivity. Qed.

(** With a Runge-Kutta method, update of the models on arrays is what DynModel.v says
    about the equations of motion. *)
Theorem C122_vehicle : forall m g vx acc p x u a b tab hs dt,
  mo_kind m = KVehicle -> mo_params m = PVehicle vx acc (vp_dmax p) (vp_ddmax p) -> same_vehicle (mo_geo m) g -> same_limits vx acc (vp_m p) -> mo_state m = vst_obj x -> has u "acc" a -> has u "ddelta" b ->
  moves_to m (option_map vst_obj (DynModel.update (vehicle_plant g p) tab (mo_collided m) x (mkVCm a b) hs)) (model_update (rk_array tab hs) m u dt).
Proof.
  intros m g vx acc p x u a b tab hs dt K P G (-> & ->) S A B. destruct p as [[vl vh al ah] d dd]. cbn [vp_m vp_dmax vp_ddmax mp_vlo mp_vhi mp_alo mp_ahi] in *.
  apply (refine (vehicle_plant g (mkVPR (mkMP vl vh al ah) d dd)) arr5 arrv vst_obj 5 m u (mkVCm a b) x); try reflexivity.
  - intros y v. cbn [vehicle_plant p_dynamics p_ignore p_zero p_scaleU]. unfold arrv at 2. cbn [vcm_scale c_acc c_ddelta]. rewrite <- (same_vehicle_ignores m g (or_introl K) G), !Rmult_0_l. apply (rates_vehicle m _ _ _ _ g y v K P (same_vehicle_as _ _ G)).
  - rewrite K, S. destruct x. reflexivity.
  - rewrite K. apply (has2 _ _ "acc" "ddelta"); [reflexivity|exact A|exact B].
  - intros y v. unfold stateactions_from_array. rewrite K. destruct y, v, (ignores m); eexists; reflexivity.
Qed.

Theorem C122_vehicle_dyn : forall m g vx acc p pf pr x u a b tab hs dt,
  mo_kind m = KVehicleDyn -> mo_params m = PVehicle vx acc (vp_dmax p) (vp_ddmax p) -> same_vehicle (mo_geo m) g -> same_limits vx acc (vp_m p) -> mo_tyres m = Some (pf, pr) -> mo_state m = dst_obj x -> has u "acc" a -> has u "ddelta" b ->
  moves_to m (option_map dst_obj (DynModel.update (vehicle_dyn_plant g p pf pr) tab (mo_collided m) x (mkVCm a b) hs)) (model_update (rk_array tab hs) m u dt).
Proof.
  intros m g vx acc p pf pr x u a b tab hs dt K P G (-> & ->) T S A B. destruct p as [[vl vh al ah] d dd]. cbn [vp_m vp_dmax vp_ddmax mp_vlo mp_vhi mp_alo mp_ahi] in *.
  apply (refine (vehicle_dyn_plant g (mkVPR (mkMP vl vh al ah) d dd) pf pr) arr7 arrv dst_obj 7 m u (mkVCm a b) x); try reflexivity.
  - intros y v. cbn [vehicle_dyn_plant p_dynamics p_ignore p_zero p_scaleU]. unfold arrv at 2. cbn [vcm_scale c_acc c_ddelta]. rewrite <- (same_vehicle_ignores m g (or_intror K) G), !Rmult_0_l. refine (rates_dyn m _ _ _ _ g pf pr x y v K P (same_vehicle_as _ _ G) T _). rewrite S. destruct x. reflexivity.
  - rewrite K, S. destruct x. reflexivity.
  - rewrite K. apply (has2 _ _ "acc" "ddelta"); [reflexivity|exact A|exact B].
  - intros y v. unfold stateactions_from_array. rewrite K. destruct y, v, (ignores m); eexists; reflexivity.
Qed.

Theorem C122_pedestrian : forall m vx acc p x u a b tab hs dt,
  mo_kind m = KPedestrian -> mo_params m = PPedestrian vx acc (pp_dtheta p) -> same_limits vx acc (pp_m p) -> mo_state m = st6_obj "PedestrianState" x -> has u "acc" a -> has u "dpsi" b ->
  moves_to m (option_map (st6_obj "PedestrianState") (DynModel.update (pedestrian_plant p) tab (mo_collided m) x (mkPC a b) hs)) (model_update (rk_array tab hs) m u dt).
Proof.
  intros m vx acc p x u a b tab hs dt K P (-> & ->) S A B. destruct p as [[vl vh al ah] w]. cbn [pp_m pp_dtheta mp_vlo mp_vhi mp_alo mp_ahi] in *.
  apply (refine (pedestrian_plant (mkPP (mkMP vl vh al ah) w)) arr6 arrp (st6_obj "PedestrianState") 6 m u (mkPC a b) x); try reflexivity.
  - intros y v. cbn [pedestrian_plant p_dynamics p_ignore p_zero p_scaleU]. unfold arrp at 2. cbn [vcm_scale pc_acc pc_dpsi]. rewrite !Rmult_0_l. pose proof (rates_pedestrian m _ _ _ x y v K P) as E. unfold ignores in E. rewrite K in E. apply E. rewrite S. destruct x. reflexivity.
  - rewrite K, S. destruct x. reflexivity.
  - rewrite K. apply (has2 _ _ "acc" "dpsi"); [reflexivity|exact A|exact B].
  - intros y v. unfold stateactions_from_array. rewrite K. destruct y, v, (ignores m); eexists; reflexivity.
Qed.

Theorem C122_diff_drive : forall m vx acc lo hi t wb wr rad x u a b tab hs dt,
  mo_kind m = KDiffDrive -> mo_params m = PDiffDrive vx acc (lo, hi) -> ge_body (mo_geo m) = GDiffDrive t wb wr rad -> mo_state m = st3_obj x -> has u "omega_l" a -> has u "omega_r" b ->
  moves_to m (option_map st3_obj (DynModel.update (diff_drive_plant wb wr lo hi) tab (mo_collided m) x (mkWC a b) hs)) (model_update (rk_array tab hs) m u dt).
Proof.
  intros m vx acc lo hi t wb wr rad x u a b tab hs dt K P G S A B.
  apply (refine (diff_drive_plant wb wr lo hi) arr3 arrw st3_obj 3 m u (mkWC a b) x); try reflexivity.
  - intros y v. cbn [diff_drive_plant p_dynamics p_ignore p_zero p_scaleU]. unfold arrw at 2. cbn [vcm_scale wc_l wc_r]. rewrite !Rmult_0_l. pose proof (rates_diff m _ _ _ t wb wr rad y v K P G) as E. unfold ignores in E. rewrite K in E. exact E.
  - rewrite K, S. destruct x. reflexivity.
  - rewrite K. apply (has2 _ _ "omega_l" "omega_r"); [reflexivity|exact A|exact B].
  - intros y v. unfold stateactions_from_array. rewrite K. destruct y, v, (ignores m); eexists; reflexivity.
Qed.

Theorem C122_spacecraft : forall m vx acc lo hi p g t ms iz x u a b tab hs dt,
  mo_kind m = KSpacecraft -> mo_params m = PSpacecraft vx acc (lo, hi) -> same_limits vx acc p -> ge_body (mo_geo m) = GSpacecraft g t -> ge_m (mo_geo m) = Some ms -> ge_Iz (mo_geo m) = Some iz ->
  mo_state m = st6_obj "SpacecraftState" x -> has u "acc_left" a -> has u "acc_right" b ->
  moves_to m (option_map (st6_obj "SpacecraftState") (DynModel.update (spacecraft_plant p lo hi (sg_w_half g) ms iz) tab (mo_collided m) x (mkSC a b) hs)) (model_update (rk_array tab hs) m u dt).
Proof.
  intros m vx acc lo hi p g t ms iz x u a b tab hs dt K P (-> & ->) G M I S A B. destruct p as [vl vh al ah]. cbn [mp_vlo mp_vhi mp_alo mp_ahi] in *.
  apply (refine (spacecraft_plant (mkMP vl vh al ah) lo hi (sg_w_half g) ms iz) arr6 arrs (st6_obj "SpacecraftState") 6 m u (mkSC a b) x); try reflexivity.
  - intros y v. cbn [spacecraft_plant p_dynamics p_ignore p_zero p_scaleU]. unfold arrs at 2. cbn [vcm_scale sc_l sc_r]. rewrite !Rmult_0_l. pose proof (rates_spacecraft m _ _ _ g t ms iz y v K P G M I) as E. unfold ignores in E. rewrite K in E. exact E.
  - rewrite K, S. destruct x. reflexivity.
  - rewrite K. apply (has2 _ _ "acc_left" "acc_right"); [reflexivity|exact A|exact B].
  - intros y v. unfold stateactions_from_array. rewrite K. destruct y, v, (ignores m); eexists; reflexivity.
Qed.

Theorem C122_obstacle : forall m vx acc lo hi ddp p x u a b d tab hs dt,
  mo_kind m = KDynObstacle -> mo_params m = PObstacle vx acc (lo, hi) ddp -> same_limits vx acc p -> mo_state m = st6_obj "DynObstacleState" x -> has u "acc_x" a -> has u "acc_y" b -> has u "acc_psi" d ->
  moves_to m (option_map (st6_obj "DynObstacleState") (DynModel.update (obstacle_plant p lo hi) tab (mo_collided m) x (mkOC a b d) hs)) (model_update (rk_array tab hs) m u dt).
Proof.
  intros m vx acc lo hi ddp p x u a b d tab hs dt K P (-> & ->) S A B D. destruct p as [vl vh al ah]. cbn [mp_vlo mp_vhi mp_alo mp_ahi] in *.
  apply (refine (obstacle_plant (mkMP vl vh al ah) lo hi) arr6 arro (st6_obj "DynObstacleState") 6 m u (mkOC a b d) x); try reflexivity.
  - intros y v. cbn [obstacle_plant p_dynamics p_ignore p_zero p_scaleU]. unfold arro at 2. cbn [vcm_scale oc_x oc_y oc_psi]. rewrite !Rmult_0_l. exact (rates_obstacle m _ _ _ _ y v K P).
  - rewrite K, S. destruct x. reflexivity.
  - rewrite K. apply (has3 _ _ "acc_x" "acc_y" "acc_psi"); [reflexivity|exact A|exact B|exact D].
  - intros y v. unfold stateactions_from_array. rewrite K. destruct y, v, (ignores m); eexists; reflexivity.
Qed.

Theorem C122_rocket : forall m vx acc p g t iz x u a b d tab hs dt,
  mo_kind m = KRocket -> mo_params m = PRocket vx acc (rp_mv p) (rp_CT p) (rp_Flo p, rp_Fhi p) (rp_lo p, rp_hi p) (rp_dlo p, rp_dhi p) -> ge_body (mo_geo m) = GRocket g t -> ge_Iz (mo_geo m) = Some iz ->
  mo_state m = st8_obj "RocketState" "phi" x -> has u "F_left" a -> has u "F_right" b -> has u "dphi" d ->
  moves_to m (option_map (st8_obj "RocketState" "phi") (DynModel.update (rocket_plant p iz (rg_l_m g)) tab (mo_collided m) x (mkRC a b d) hs)) (model_update (rk_array tab hs) m u dt).
Proof.
  intros m vx acc p g t iz x u a b d tab hs dt K P G I S A B D. destruct p as [mv ct Fl Fh l h dl dh]. cbn [rp_mv rp_CT rp_Flo rp_Fhi rp_lo rp_hi rp_dlo rp_dhi] in *.
  apply (refine (rocket_plant (mkRP mv ct Fl Fh l h dl dh) iz (rg_l_m g)) arr8 arrr (st8_obj "RocketState" "phi") 8 m u (mkRC a b d) x); try reflexivity.
  - intros y v. cbn [rocket_plant p_dynamics p_ignore p_zero p_scaleU]. unfold arrr at 2. cbn [vcm_scale rc_l rc_r rc_dphi]. rewrite !Rmult_0_l. pose proof (rates_rocket m _ _ _ _ _ _ _ g t iz y v K P G I) as E. unfold ignores in E. rewrite K in E. exact E.
  - rewrite K, S. destruct x. reflexivity.
  - rewrite K. apply (has3 _ _ "F_left" "F_right" "dphi"); [reflexivity|exact A|exact B|exact D].
  - intros y v. unfold stateactions_from_array. rewrite K. destruct y, v, (ignores m); eexists; reflexivity.
Qed.

Theorem C122_spaceship : forall m vx acc p g t iz x u a b tab hs dt,
  mo_kind m = KSpaceship -> mo_params m = PSpaceship vx acc (rp_mv p) (rp_CT p) (rp_Flo p, rp_Fhi p) (rp_lo p, rp_hi p) (rp_dlo p, rp_dhi p) -> ge_body (mo_geo m) = GSpaceship g t -> ge_Iz (mo_geo m) = Some iz ->
  mo_state m = st8_obj "SpaceshipState" "delta" x -> has u "thrust" a -> has u "ddelta" b ->
  moves_to m (option_map (st8_obj "SpaceshipState" "delta") (DynModel.update (spaceship_plant p iz (hg_l_r g)) tab (mo_collided m) x (mkSSC a b) hs)) (model_update (rk_array tab hs) m u dt).
Proof.
  intros m vx acc p g t iz x u a b tab hs dt K P G I S A B. destruct p as [mv ct Fl Fh l h dl dh]. cbn [rp_mv rp_CT rp_Flo rp_Fhi rp_lo rp_hi rp_dlo rp_dhi] in *.
  apply (refine (spaceship_plant (mkRP mv ct Fl Fh l h dl dh) iz (hg_l_r g)) arr8 arrh (st8_obj "SpaceshipState" "delta") 8 m u (mkSSC a b) x); try reflexivity.
  - intros y v. cbn [spaceship_plant p_dynamics p_ignore p_zero p_scaleU]. unfold arrh at 2. cbn [vcm_scale ss_thrust ss_ddelta]. rewrite !Rmult_0_l. pose proof (rates_spaceship m _ _ _ _ _ _ _ g t iz y v K P G I) as E. unfold ignores in E. rewrite K in E. exact E.
  - rewrite K, S. destruct x. reflexivity.
  - rewrite K. apply (has2 _ _ "thrust" "ddelta"); [reflexivity|exact A|exact B].
  - intros y v. unfold stateactions_from_array. rewrite K. destruct y, v, (ignores m); eexists; reflexivity.
Qed.

Example C122_ex : let m := mkModel KVehicle (vst_obj (mkV 0 0 0 10 0)) "VehicleState" geo_default_car (PVehicle (mp_vlo (vp_m vp_rcar), mp_vhi (vp_m vp_rcar)) (mp_alo (vp_m vp_rcar), mp_ahi (vp_m vp_rcar)) (vp_dmax vp_rcar) (vp_ddmax vp_rcar)) [] None false in
  let u := mkO "VehicleCommands" [("acc", Num 0); ("ddelta", Num 0); ("lights", Lights "off")] in
  same_vehicle (mo_geo m) vg_car /\ has u "acc" 0 /\ has u "ddelta" 0 /\ exists m', model_update (rk_array ([[]], [1]) [2]) m u 2 = Ok m' /\ has (mo_state m') "x" 20 /\ has (mo_state m') "vx" 10.
Proof.
  intros m u. assert (G : same_vehicle (mo_geo m) vg_car) by (split; [reflexivity|]; split; [reflexivity|]; eexists; split; reflexivity).
  split; [exact G|]. split; [reflexivity|]. split; [reflexivity|].
  pose proof (C122_vehicle_pf m vg_car _ _ vp_rcar (mkV 0 0 0 10 0) u 0 0 ([[]], [1]) [2] 2 eq_refl eq_refl G (conj eq_refl eq_refl) eq_refl eq_refl eq_refl) as H.
  assert (A : apply_full_acceleration_limits 10 0 (vp_m vp_rcar) = 0) by (unfold apply_full_acceleration_limits, apply_speed_constraint, apply_acceleration_limits, vp_rcar; cbn [vp_m mp_vlo mp_vhi mp_alo mp_ahi]; cmp).
  assert (B : steering_constraint 0 0 (vp_dmax vp_rcar) (vp_ddmax vp_rcar) = 0) by (unfold steering_constraint, vp_rcar; cbn [vp_dmax vp_ddmax]; cmp).
  unfold DynModel.update, moves_to in H. cbn - [vp_rcar vg_car m u model_update] in H. unfold vehicle_dynamics in H. cbn - [vp_rcar vg_car m u model_update steering_constraint apply_full_acceleration_limits] in H. change (mo_collided m) with false in H. cbn [andb c_acc c_ddelta] in H. rewrite A, B, tan_0, cos_0, sin_0 in H.
  eexists. split; [exact H|]. split; unfold has; cbn; do 2 f_equal; unfold vg_wheelbase; cbn; field.
Qed.

(** The other kinds: a model of each that meets the hypotheses. *)
Example C122_others_ex :
  (exists m g vx acc p pf pr x u, mo_kind m = KVehicleDyn /\ mo_params m = PVehicle vx acc (vp_dmax p) (vp_ddmax p) /\ same_vehicle (mo_geo m) g /\ same_limits vx acc (vp_m p) /\ mo_tyres m = Some (pf, pr) /\ mo_state m = dst_obj x /\ has u "acc" 1 /\ has u "ddelta" 2) /\
  (exists m vx acc p x u, mo_kind m = KPedestrian /\ mo_params m = PPedestrian vx acc (pp_dtheta p) /\ same_limits vx acc (pp_m p) /\ mo_state m = st6_obj "PedestrianState" x /\ has u "acc" 1 /\ has u "dpsi" 2) /\
  (exists m vx acc lo hi t wb wr rad x u, mo_kind m = KDiffDrive /\ mo_params m = PDiffDrive vx acc (lo, hi) /\ ge_body (mo_geo m) = GDiffDrive t wb wr rad /\ mo_state m = st3_obj x /\ has u "omega_l" 1 /\ has u "omega_r" 2) /\
  (exists m vx acc lo hi p g t ms iz x u, mo_kind m = KSpacecraft /\ mo_params m = PSpacecraft vx acc (lo, hi) /\ same_limits vx acc p /\ ge_body (mo_geo m) = GSpacecraft g t /\ ge_m (mo_geo m) = Some ms /\ ge_Iz (mo_geo m) = Some iz /\ mo_state m = st6_obj "SpacecraftState" x /\ has u "acc_left" 1 /\ has u "acc_right" 2) /\
  (exists m vx acc lo hi ddp p x u, mo_kind m = KDynObstacle /\ mo_params m = PObstacle vx acc (lo, hi) ddp /\ same_limits vx acc p /\ mo_state m = st6_obj "DynObstacleState" x /\ has u "acc_x" 1 /\ has u "acc_y" 2 /\ has u "acc_psi" 3) /\
  (exists m vx acc p g t iz x u, mo_kind m = KRocket /\ mo_params m = PRocket vx acc (rp_mv p) (rp_CT p) (rp_Flo p, rp_Fhi p) (rp_lo p, rp_hi p) (rp_dlo p, rp_dhi p) /\ ge_body (mo_geo m) = GRocket g t /\ ge_Iz (mo_geo m) = Some iz /\ mo_state m = st8_obj "RocketState" "phi" x /\ has u "F_left" 1 /\ has u "F_right" 2 /\ has u "dphi" 3) /\
  (exists m vx acc p g t iz x u, mo_kind m = KSpaceship /\ mo_params m = PSpaceship vx acc (rp_mv p) (rp_CT p) (rp_Flo p, rp_Fhi p) (rp_lo p, rp_hi p) (rp_dlo p, rp_dhi p) /\ ge_body (mo_geo m) = GSpaceship g t /\ ge_Iz (mo_geo m) = Some iz /\ mo_state m = st8_obj "SpaceshipState" "delta" x /\ has u "thrust" 1 /\ has u "ddelta" 2).
Proof.
  set (L := (-1, 1) : R * R).
  split; [exists (mkModel KVehicleDyn (dst_obj (mkD 0 0 0 10 0 1 0)) "VehicleStateDyn" geo_default_car (PVehicle (mp_vlo (vp_m vp_rcar), mp_vhi (vp_m vp_rcar)) (mp_alo (vp_m vp_rcar), mp_ahi (vp_m vp_rcar)) (vp_dmax vp_rcar) (vp_ddmax vp_rcar)) [] (Some (P3 10 2 1, P3 10 2 1)) false);
    exists vg_car, (mp_vlo (vp_m vp_rcar), mp_vhi (vp_m vp_rcar)), (mp_alo (vp_m vp_rcar), mp_ahi (vp_m vp_rcar)), vp_rcar, (P3 10 2 1), (P3 10 2 1), (mkD 0 0 0 10 0 1 0), (mkO "VehicleCommands" [("acc", Num 1); ("ddelta", Num 2)]); repeat split; eexists; split; reflexivity|].
  split; [exists (mkModel KPedestrian (st6_obj "PedestrianState" (mk6 0 0 0 1 0 0)) "PedestrianState" geo_default_pedestrian (PPedestrian (-1, 1) (-2, 2) PI) [] None false), (-1, 1), (-2, 2), (mkPP (mkMP (-1) 1 (-2) 2) PI), (mk6 0 0 0 1 0 0), (mkO "PedestrianCommands" [("acc", Num 1); ("dpsi", Num 2)]); repeat split|].
  split; [exists (mkModel KDiffDrive (st3_obj (mk3 0 0 0)) "DiffDriveState" geo_default_diff_drive (PDiffDrive L L (-3, 3)) [] None false), L, L, (-3), 3, "differential_drive", 1, (2 / 10), (6 / 10), (mk3 0 0 0), (mkO "DiffDriveCommands" [("omega_l", Num 1); ("omega_r", Num 2)]); repeat split|].
  split; [exists (mkModel KSpacecraft (st6_obj "SpacecraftState" (mk6 0 0 0 1 0 0)) "SpacecraftState" (mkGeo (Some 2) (Some 1) 0 "royalblue" (GSpacecraft (mkSG 1 2 1) "spacecraft")) (PSpacecraft (-1, 1) (-2, 2) (-3, 3)) [] None false), (-1, 1), (-2, 2), (-3), 3, (mkMP (-1) 1 (-2) 2), (mkSG 1 2 1), "spacecraft", 2, 1, (mk6 0 0 0 1 0 0), (mkO "SpacecraftCommands" [("acc_left", Num 1); ("acc_right", Num 2)]); repeat split|].
  split; [exists (mkModel KDynObstacle (st6_obj "DynObstacleState" (mk6 0 0 0 1 0 0)) "DynObstacleState" (mkGeo (Some 2) (Some 1) 0 "royalblue" GObstacle) (PObstacle (-1, 1) (-2, 2) (-3, 3) L) [] None false), (-1, 1), (-2, 2), (-3), 3, L, (mkMP (-1) 1 (-2) 2), (mk6 0 0 0 1 0 0), (mkO "DynObstacleCommands" [("acc_x", Num 1); ("acc_y", Num 2); ("acc_psi", Num 3)]); repeat split|].
  split; [exists (mkModel KRocket (st8_obj "RocketState" "phi" (mk8 0 0 0 1 0 0 5 0)) "RocketState" geo_default_rocket (PRocket L L (rp_mv rp_default) (rp_CT rp_default) (rp_Flo rp_default, rp_Fhi rp_default) (rp_lo rp_default, rp_hi rp_default) (rp_dlo rp_default, rp_dhi rp_default)) [] None false), L, L, rp_default, rocket_default0, "rocket", 1, (mk8 0 0 0 1 0 0 5 0), (mkO "RocketCommands" [("F_left", Num 1); ("F_right", Num 2); ("dphi", Num 3)]); repeat split|].
  exists (mkModel KSpaceship (st8_obj "SpaceshipState" "delta" (mk8 0 0 0 1 0 0 5 0)) "SpaceshipState" geo_default_spaceship (PSpaceship L L (rp_mv sp_default) (rp_CT sp_default) (rp_Flo sp_default, rp_Fhi sp_default) (rp_lo sp_default, rp_hi sp_default) (rp_dlo sp_default, rp_dhi sp_default)) [] None false), L, L, sp_default, spaceship_default0, "spaceship", 1, (mk8 0 0 0 1 0 0 5 0), (mkO "SpaceshipCommands" [("thrust", Num 1); ("ddelta", Num 2)]); repeat split.
Qed.

Lemma get_set s a x f : getattr (setattr s a x) f = if String.eqb a f then Ok x else getattr s f.
Proof.
  destruct (String.eqb_spec a f) as [<-|N]; [|apply getattr_other; congruence].
  unfold getattr, setattr. cbn [o_dict]. rewrite (AssocLemmas.aget_aset_same String.eqb String.eqb_eq). reflexivity.
Qed.

Lemma set_velocity_writes k st v w st' : set_velocity k st v w false = Ok st' -> o_cls st' = o_cls st /\
  (forall f, ~ In f ["vx"; "vy"; "dpsi"; "dtheta"] -> getattr st' f = getattr st f) /\ (forall f, (exists r, has st f r) -> exists r, has st' f r).
Proof.
  unfold set_velocity, has. intro H.
  assert (E : st' = st \/ exists x, st' = setattr st "vx" (Num (fst x)) \/ exists e, In e ["vx"; "dpsi"; "dtheta"] /\ st' = setattr (setattr (setattr st "vx" (Num (fst x))) "vy" (Num (snd x))) e (Num w)).
  { destruct k; try (left; apply OI in H; congruence); right; apply bind_Ok in H as (x & _ & H); apply OI in H; subst st'; exists x;
    first [left; reflexivity|right; eexists; split; [|reflexivity]; cbn; tauto]. }
  destruct E as [->|(x & [->|(e & Ie & ->)])]; [auto| |]; (split; [reflexivity|]); split.
  - intros f N. rewrite get_set. destruct (String.eqb_spec "vx" f) as [<-|_]; [exfalso; apply N; cbn; tauto|reflexivity].
  - intros f Q. rewrite get_set. destruct (String.eqb "vx" f); eauto.
  - intros f N. rewrite !get_set. destruct (String.eqb_spec e f) as [<-|_]; [exfalso; apply N; cbn in Ie |- *; tauto|].
    destruct (String.eqb_spec "vy" f) as [<-|_]; [exfalso; apply N; cbn; tauto|]. destruct (String.eqb_spec "vx" f) as [<-|_]; [exfalso; apply N; cbn; tauto|reflexivity].
  - intros f Q. rewrite !get_set. destruct (String.eqb e f); [eauto|]. destruct (String.eqb "vy" f); [eauto|]. destruct (String.eqb "vx" f); eauto.
Qed.

Lemma set_velocity_fits k st v w st' : set_velocity k st v w false = Ok st' -> fits k st -> fits k st'.
Proof.
  intros H [C I]. split; [intros f F; apply (proj2 (proj2 (set_velocity_writes _ _ _ _ _ H))); apply C; exact F|].
  intro N. specialize (I N). destruct k; try congruence; cbn [state_class] in *; unfold set_velocity in H;
  try (apply OI in H; subst st'; exact I); apply bind_Ok in H as (x & _ & H); apply OI in H; subst st'; inst st I.
  - apply (inst_mk cVehicleState [r; r0; r1; fst x; r3]); [nolights|reflexivity].
  - apply (inst_mk cPedestrianState [r; r0; r1; w; snd x; r4]); [nolights|reflexivity].
  - apply (inst_mk cSpacecraftState [r; r0; r1; fst x; snd x; w]); [nolights|reflexivity].
  - apply (inst_mk cDynObstacleState [r; r0; r1; fst x; snd x; w]); [nolights|reflexivity].
  - apply (inst_mk cRocketState [r; r0; r1; fst x; snd x; w; r5; r6]); [nolights|reflexivity].
  - apply (inst_mk cSpaceshipState [r; r0; r1; fst x; snd x; w; r5; r6]); [nolights|reflexivity].
Qed.

Lemma collide_hit m : hit m (collide m).
Proof. split; [repeat split|]. split; [repeat split|auto]. Qed.

Lemma push_hit L m o : hit m (md_set_velocity (seen_by L) (collide m) o).
Proof.
  cbn [md_set_velocity seen_by seen]. destruct o as [[v w]|]; [|apply collide_hit].
  unfold with_velocity. destruct (set_velocity (mo_kind (collide m)) (mo_state (collide m)) v w false) as [s|e] eqn:E; [|apply collide_hit].
  cbn [bind or_else]. pose proof (set_velocity_writes _ _ _ _ _ E) as (_ & W & _). pose proof (set_velocity_fits _ _ _ _ _ E) as F.
  split; [repeat split|]. split; [repeat split; exact W|exact F].
Qed.

Lemma pair_models (p q : nat) (a b a' b' : model) : p <> q -> aget Nat.eqb [(p, a); (q, b)] p = Some a /\ aget Nat.eqb [(p, a); (q, b)] q = Some b /\
  aset Nat.eqb (aset Nat.eqb [(p, a); (q, b)] p a') q b' = [(p, a'); (q, b')].
Proof.
  intro N. assert (E : (p =? q)%nat = false) by (apply Nat.eqb_neq; exact N). unfold aget, aset. cbn. rewrite !Nat.eqb_refl, E. cbn. rewrite ?E, ?Nat.eqb_refl. auto.
Qed.

Lemma resolve_cases L C (sc : co_scen C) p q t a b a' b' out : resolve_models L C sc p q t a b = ((a', b'), out) ->
  (a' = a /\ b' = b /\ (out = Ok None \/ exists e, out = Err e)) \/
  (hit a a' /\ hit b b' /\ ((exists e, out = Err e) \/ exists d, out = Ok (Some (SimulatorModel.mkRep [p; q] t (Some d))) /\ map fst (rep_players d) = [p; q] /\ rep_time d = seconds t)).
Proof.
  unfold resolve_models. destruct (Nat.eqb_spec p q) as [->|N]; [intros [= <- <- <-]; auto|].
  unfold resolve_collision, agetE. destruct (pair_models p q a b a b N) as (Pa & Pb & _). rewrite Pa, Pb.
  destruct (compute_impact_geometry (li_shapely L) _ _) as [[nrm ip]|e]; [|rewrite Pa, Pb; intros [= <- <- <-]; left; eauto].
  destruct (md_velocity (seen_by L) a) as [va wa], (md_velocity (seen_by L) b) as [vb wb]. destruct (match nrm with None => false | Some _ => _ end); [rewrite Pa, Pb; intros [= <- <- <-]; left; auto|].
  cbn zeta. cbn [md_set_collided seen_by seen].
  assert (X : forall x y, aset Nat.eqb (aset Nat.eqb [(p, a); (q, b)] p x) q y = [(p, x); (q, y)]) by (intros x y; apply pair_models; exact N).
  assert (Y : forall x y, aget Nat.eqb [(p, x); (q, y)] p = Some x /\ aget Nat.eqb [(p, x); (q, y)] q = Some y) by (intros x y; destruct (pair_models p q x y x y N) as (? & ? & _); auto).
  rewrite !X. destruct (impact_locations_from_polygons (li_shapely L) _ _ _) as [la|e]; [|destruct (Y (collide a) (collide b)) as [-> ->]; intros [= <- <- <-]; right; eauto using collide_hit].
  destruct (impact_locations_from_polygons (li_shapely L) _ (collide b) _) as [lb|e]; [|destruct (Y (collide a) (collide b)) as [-> ->]; intros [= <- <- <-]; right; eauto using collide_hit].
  match goal with |- context [match match co_net C sc with Some _ => _ | None => Ok (false, false) end with Ok _ => _ | Err _ => _ end] => destruct (match co_net C sc with Some _ => _ | None => Ok (false, false) end) as [[fa fb]|e] end; [|destruct (Y (collide a) (collide b)) as [-> ->]; intros [= <- <- <-]; right; eauto using collide_hit].
  match goal with |- context [aset Nat.eqb (aset Nat.eqb _ p ?x) q ?y] => set (x' := x); set (y' := y) end.
  assert (Z : aset Nat.eqb (aset Nat.eqb [(p, collide a); (q, collide b)] p x') q y' = [(p, x'); (q, y')]) by (apply pair_models; exact N). rewrite Z. destruct (Y x' y') as [-> ->].
  intros [= <- <- <-]. right. split; [apply push_hit|]. split; [apply push_hit|]. right. eexists. split; [reflexivity|]. split; reflexivity.
Qed.

Lemma env_cases L env p ob t m m' out : resolve_with_obstacle L env p ob t m = (m', out) ->
  (m' = m /\ (out = Ok None \/ exists e, out = Err e)) \/
  (hit m m' /\ ((exists e, out = Err e) \/ exists d, out = Ok (Some (SimulatorModel.mkRep [p; env] t (Some d))) /\ map fst (rep_players d) = [p; env] /\ rep_time d = seconds t)).
Proof.
  unfold resolve_with_obstacle, resolve_collision_with_environment.
  destruct (compute_impact_geometry (li_shapely L) _ _) as [[nrm ip]|e]; [|intros [= <- <-]; left; eauto].
  destruct (md_velocity (seen_by L) m) as [va wa]. destruct (match nrm with None => false | Some _ => _ end); [intros [= <- <-]; left; auto|].
  cbn zeta. cbn [md_set_collided seen_by seen].
  destruct (impact_locations_from_polygons (li_shapely L) _ _ _) as [la|e]; [|intros [= <- <-]; right; eauto using collide_hit].
  destruct (if is_polygon (li_shapely L) _ then _ else _) as [bp|e]; [|intros [= <- <-]; right; split; [apply (push_hit L)|eauto]].
  intros [= <- <-]. right. split; [apply (push_hit L)|]. right. eexists. split; [reflexivity|]. split; reflexivity.
Qed.

(** ** C123  What a run does to a model *)

Theorem C123_laws :
  forall L C env, resolution_keeps_footprint (sim_world L C env) /\ reports_stamped (sim_world L C env).
Proof.
  intros L C env.
  assert (K : forall m m', hit m m' -> md_footprint (seen_by L) m' = md_footprint (seen_by L) m).
  { intros m m' (_ & S & _). cbn. rewrite (stays_footprint _ _ _ _ _ S). reflexivity. }
  split; split; cbn [resolve resolve_env footprint sim_world].
  - intros sc p q t a b a' b' H. destruct (resolve_models L C sc p q t a b) as [ab out] eqn:E. cbn in H. subst ab.
    destruct (resolve_cases _ _ _ _ _ _ _ _ _ _ _ E) as [(-> & -> & _)|(Ha & Hb & _)]; auto.
  - intros p ob t m. destruct (resolve_with_obstacle L env p ob t m) as [m' out] eqn:E. cbn [fst]. destruct (env_cases _ _ _ _ _ _ _ _ E) as [[-> _]|[H _]]; auto.
  - intros sc p q t a b r H. destruct (resolve_models L C sc p q t a b) as [[a' b'] out] eqn:E. cbn in H. subst out.
    destruct (resolve_cases _ _ _ _ _ _ _ _ _ _ _ E) as [(_ & _ & [H|[e H]])|(_ & _ & [[e H]|(d & H & _)])]; try discriminate. apply OI in H. injection H as ->. reflexivity.
  - intros p ob t m r H. destruct (resolve_with_obstacle L env p ob t m) as [m' out] eqn:E. cbn in H. subst out.
    destruct (env_cases _ _ _ _ _ _ _ _ E) as [[_ [H|[e H]]]|[_ [[e H]|(d & H & _)]]]; try discriminate. apply OI in H. injection H as ->. reflexivity.
Qed.

Lemma expected_cons W (e : event W) l : expected_reports (e :: l) = (expected_reports l ++ expected_reports [e])%list.
Proof. unfold expected_reports. cbn [rev]. rewrite flat_map_app. cbn. rewrite ?app_nil_r. reflexivity. Qed.

Lemma touched_more W (e : event W) l p : touched l p -> touched (e :: l) p.
Proof.
  intros [(r & R & I)|(i & t & out & I)]; [left; exists r; rewrite expected_cons; split; [apply in_or_app; left; exact R|exact I]|right; exists i, t, out; right; exact I].
Qed.

Lemma always L C env (P : player -> model -> Prop) d sc : (forall p m u m', P p m -> model_update (li_solve L) m u (seconds d) = Ok m' -> P p m') -> (forall p m m', P p m -> hit m m' -> P p m') ->
  forall x y : list (player * w_M (sim_world L C env)) * list (event (sim_world L C env)), many (change d sc) x y ->
  (forall p m, dget (fst x) p = Some m -> P p m) -> forall p m, dget (fst y) p = Some m -> P p m.
Proof.
  intros H1 H2 x y M. apply (many_inv (change d sc) (fun x => forall p m, dget (fst x) p = Some m -> P p m)); [|exact M]. clear x y M.
  intros x y [Q|[t Q]] I p m Hm.
  - destruct Q as [| |ms l p0 t u m0 m1 Hp S]; cbn [fst] in *; auto.
    destruct (Nat.eq_dec p p0) as [->|N]; [rewrite dget_dset_same in Hm; injection Hm as <-; eapply H1; [apply I; exact Hp|exact S]|].
    rewrite dget_dset_other in Hm by congruence. auto.
  - destruct Q as [ms l p0 i ob m0 m1 out Hp S _|ms l p0 q a b a' b' out N Ha Hb S _]; cbn [fst] in *.
    + destruct (Nat.eq_dec p p0) as [->|Np]; [rewrite dget_dset_same in Hm; injection Hm as <-|rewrite dget_dset_other in Hm by congruence; auto].
      destruct (env_cases _ _ _ _ _ _ _ _ S) as [[-> _]|[H _]]; [auto|eapply H2; [apply I; exact Hp|exact H]].
    + destruct (resolve_cases _ _ _ _ _ _ _ _ _ _ _ S) as [(-> & -> & _)|(Xa & Xb & _)];
      (destruct (Nat.eq_dec p q) as [->|Nq]; [rewrite dget_dset_same in Hm; injection Hm as <-|rewrite dget_dset_other in Hm by congruence;
        destruct (Nat.eq_dec p p0) as [->|Np]; [rewrite dget_dset_same in Hm; injection Hm as <-|rewrite dget_dset_other in Hm by congruence; auto]]); auto;
      (eapply H2; [|eassumption]; auto).
Qed.

Lemma until L C env (P : player -> model -> Prop) d sc : (forall p m u m', P p m -> model_update (li_solve L) m u (seconds d) = Ok m' -> P p m') ->
  forall x y : list (player * w_M (sim_world L C env)) * list (event (sim_world L C env)), many (change d sc) x y ->
  (forall p m, dget (fst x) p = Some m -> P p m \/ touched (snd x) p) -> forall p m, dget (fst y) p = Some m -> P p m \/ touched (snd y) p.
Proof.
  intros H1 x y M. apply (many_inv (change d sc) (fun x => forall p m, dget (fst x) p = Some m -> P p m \/ touched (snd x) p)); [|exact M]. clear x y M.
  assert (K : forall (A : Prop) (e : event (sim_world L C env)) l p, A \/ touched l p -> A \/ touched (e :: l) p) by (intros A e l p [X|X]; [left; exact X|right; apply touched_more; exact X]).
  intros x y [Q|[t Q]] I p m Hm.
  - destruct Q as [| |ms l p0 t u m0 m1 Hp S]; cbn [fst snd] in *; apply K; auto.
    destruct (Nat.eq_dec p p0) as [->|N]; [rewrite dget_dset_same in Hm; injection Hm as <-|rewrite dget_dset_other in Hm by congruence; auto].
    destruct (I _ _ Hp) as [X|X]; [left; eapply H1; [exact X|exact S]|auto].
  - destruct Q as [ms l p0 i ob m0 m1 out Hp S _|ms l p0 q a b a' b' out N Ha Hb S _]; cbn [fst snd] in *.
    + destruct (Nat.eq_dec p p0) as [->|Np]; [rewrite dget_dset_same in Hm; injection Hm as <-|rewrite dget_dset_other in Hm by congruence; apply K; auto].
      destruct (env_cases _ _ _ _ _ _ _ _ S) as [[-> _]|[H O]]; [apply K; auto|]. right.
      destruct (is_dyn (sim_world L C env) m1) eqn:Dy; [right; exists i, t, out; left; rewrite <- Dy; reflexivity|].
      left. rewrite expected_cons. try rewrite Dy. destruct O as [[e ->]|(d' & -> & _)]; (eexists; split; [apply in_or_app; right; left; reflexivity|left; reflexivity]).
    + destruct (resolve_cases _ _ _ _ _ _ _ _ _ _ _ S) as [(-> & -> & _)|(Xa & Xb & O)].
      * apply K. destruct (Nat.eq_dec p q) as [->|Nq]; [rewrite dget_dset_same in Hm; injection Hm as <-; auto|rewrite dget_dset_other in Hm by congruence].
        destruct (Nat.eq_dec p p0) as [->|Np]; [rewrite dget_dset_same in Hm; injection Hm as <-; auto|rewrite dget_dset_other in Hm by congruence; auto].
      * destruct (Nat.eq_dec p q) as [->|Nq]; [|destruct (Nat.eq_dec p p0) as [->|Np]; [|rewrite !dget_dset_other in Hm by congruence; apply K; auto]]; right; left; rewrite expected_cons;
        (destruct O as [[e ->]|(d' & -> & _)]; (eexists; split; [apply in_or_app; right; left; reflexivity|cbn; tauto])).
Qed.

Lemma hit_update L d m u m' : fits (mo_kind m) (mo_state m) -> model_update (li_solve L) m u d = Ok m' -> fits (mo_kind m') (mo_state m').
Proof.
  intros _ H. destruct (C122_frame_pf _ _ _ _ _ H) as ((K & _) & _ & I). rewrite K. split; [|intros _; exact I].
  apply update_reads in H as (x0 & u0 & y & _ & _ & _ & F & ->). apply from_reads in F as (_ & _ & F). intros f If.
  assert (X : exists i, In (f, i) (c_idx (state_class (mo_kind m)))).
  { clear - If. destruct (mo_kind m); cbn in If |- *; repeat (destruct If as [<-|If]; [eexists; tauto|]); destruct If. }
  destruct X as (i & X). eexists. apply F. exact X.
Qed.

Lemma same_make_trans a b c : same_make a b -> same_make b c -> same_make a c.
Proof. intros (A1 & A2 & A3 & A4 & A5 & A6) (B1 & B2 & B3 & B4 & B5 & B6). repeat split; congruence. Qed.

Lemma run_always L C env (P : player -> model -> Prop) (c : ctx (sim_world L C env)) m fuel sf : valid_ctx c -> unused m -> (0 < dt (g_param (c_cfg c)))%Qc -> run fuel m c = Some (Ok sf) ->
  (forall p m u m', P p m -> model_update (li_solve L) m u (seconds (dt (g_param (c_cfg c)))) = Ok m' -> P p m') -> (forall p m m', P p m -> hit m m' -> P p m') ->
  (forall p m, plays c p m -> P p m) ->
  (forall p m0, plays c p m0 -> exists mf, model_of sf p = Some mf /\ P p mf) /\ (forall p t x, In p (akeys (c_models c)) -> logged sf p t x -> exists mi : model, P p mi /\ x = mo_state mi).
Proof.
  intros V U D R H1 H2 H0. destruct (run_log _ _ _ _ V U D R) as (s0 & k & s & S & A & M0 & _ & Mf & _ & _ & Lg).
  assert (Al : forall i si, after s0 i si -> forall p mi, model_of si p = Some mi -> P p mi).
  { intros i si Ai. pose proof (run_micro c s0 0 s0 i si S D (after_0 s0) Ai) as Mi. intros p mi.
    apply (always L C env P _ _ H1 H2 _ _ Mi). intros q mq Hq. apply H0. unfold plays. rewrite <- M0. exact Hq. }
  split.
  - intros p m0 Hp. assert (In p (akeys (c_models (cx s)))) as I.
    { rewrite (fa_models _ _ _ _ (started_facts _ _ _ _ S D A)). exact (dget_Some_In _ _ _ Hp). }
    apply In_keys_dget in I as [mf E]. exists mf. unfold model_of. rewrite Mf. split; [exact E|]. apply (Al k s A). exact E.
  - intros p t x Hp Hl. destruct (Lg p t x Hp Hl) as (i & si & mi & _ & Ai & Mi & -> & _). exists mi. split; [apply (Al i si Ai); exact Mi|reflexivity].
Qed.

Theorem C123_same_make : forall L C env (c : ctx (sim_world L C env)) m fuel sf p (m0 : model), valid_ctx c -> unused m -> (0 < dt (g_param (c_cfg c)))%Qc -> run fuel m c = Some (Ok sf) -> plays c p m0 ->
  exists mf : model, model_of sf p = Some mf /\ same_make m0 mf /\ (mo_collided m0 = true -> mo_collided mf = true) /\ (fits (mo_kind m0) (mo_state m0) -> fits (mo_kind m0) (mo_state mf)) /\
    (fits (mo_kind m0) (mo_state m0) -> forall t x, logged sf p t x -> fits (mo_kind m0) x).
Proof.
  intros L C env c m fuel sf p m0 V U D R Hp.
  destruct (run_always L C env (fun q m => forall m0, plays c q m0 -> same_make m0 m /\ (mo_collided m0 = true -> mo_collided m = true) /\ (fits (mo_kind m0) (mo_state m0) -> fits (mo_kind m0) (mo_state m))) c m fuel sf V U D R) as [F G].
  - intros q a u b I H m1 Q. destruct (I m1 Q) as (I1 & I2 & I3). pose proof (C122_frame_pf _ _ _ _ _ H) as (H1 & H2 & _). split; [eapply same_make_trans; eassumption|]. split; [rewrite H2; exact I2|].
    intro X. pose proof (hit_update L _ _ _ _ (eq_rect_r (fun k => fits k (mo_state a)) (I3 X) (proj1 I1)) H) as Y. rewrite (proj1 H1), (proj1 I1) in Y. exact Y.
  - intros q a b I H m1 Q. destruct (I m1 Q) as (I1 & I2 & I3). destruct H as (H1 & H2 & H3). split; [eapply same_make_trans; eassumption|]. split; [intros _; apply H2|].
    intro X. pose proof (H3 (eq_rect_r (fun k => fits k (mo_state a)) (I3 X) (proj1 I1))) as Y. rewrite (proj1 H1), (proj1 I1) in Y. exact Y.
  - intros q a Q m1 Q1. unfold plays in *. assert (m1 = a) as -> by congruence. split; [repeat split|auto].
  - destruct (F p m0 Hp) as (mf & Mf & I). exists mf. split; [exact Mf|]. destruct (I m0 Hp) as (I1 & I2 & I3). repeat (split; [assumption|]).
    intros X t x Lx. assert (In p (akeys (c_models c))) as K by exact (dget_Some_In _ _ _ Hp).
    destruct (G p t x K Lx) as (mi & J & ->). destruct (J m0 Hp) as (_ & _ & J3). auto.
Qed.

Lemma run_until L C env (P : player -> model -> Prop) (c : ctx (sim_world L C env)) m fuel sf : valid_ctx c -> unused m -> (0 < dt (g_param (c_cfg c)))%Qc -> run fuel m c = Some (Ok sf) ->
  (forall p m u m', P p m -> model_update (li_solve L) m u (seconds (dt (g_param (c_cfg c)))) = Ok m' -> P p m') -> (forall p m, plays c p m -> P p m) ->
  (forall p mf, model_of sf p = Some mf -> P p mf \/ touched (ev sf) p) /\
  (forall p t x, In p (akeys (c_models c)) -> logged sf p t x -> exists s0 i si (mi : model), started c s0 /\ after s0 i si /\ time si = t /\ x = mo_state mi /\ (P p mi \/ touched (ev si) p)).
Proof.
  intros V U D R H1 H0. destruct (run_log _ _ _ _ V U D R) as (s0 & k & s & S & A & M0 & E0 & Mf & _ & Ef & Lg).
  assert (Al : forall i si, after s0 i si -> forall p mi, model_of si p = Some mi -> P p mi \/ touched (ev si) p).
  { intros i si Ai. pose proof (run_micro c s0 0 s0 i si S D (after_0 s0) Ai) as Mi. intros p mi Hm.
    apply (until L C env P _ _ H1 _ _ Mi); [|exact Hm]. intros q mq Hq. left. apply H0. unfold plays. rewrite <- M0. exact Hq. }
  split.
  - intros p mf Hf. rewrite Ef. apply (Al k s A). unfold model_of in *. rewrite <- Mf. exact Hf.
  - intros p t x Hp Hl. destruct (Lg p t x Hp Hl) as (i & si & mi & _ & Ai & Mi & -> & ->). exists s0, i, si, mi. split; [exact S|]. split; [exact Ai|]. split; [reflexivity|]. split; [reflexivity|]. exact (Al i si Ai p mi Mi).
Qed.

Lemma run_reports W (c : ctx W) m fuel sf : valid_ctx c -> unused m -> (0 < dt (g_param (c_cfg c)))%Qc -> run fuel m c = Some (Ok sf) -> c_reports (cx sf) = (c_reports c ++ expected_reports (ev sf))%list.
Proof.
  intros V U D R. destruct (run_log _ _ _ _ V U D R) as (s0 & k & s & S & A & _ & _ & _ & Rf & Ef & _). rewrite Rf, Ef. eapply C27_reports_are_the_calls_pf; eassumption.
Qed.

Lemma no_dyn_event L C env (c : ctx (sim_world L C env)) s0 k s p (m0 : model) : started c s0 -> (0 < dt (g_param (c_cfg c)))%Qc -> after s0 k s -> c_models (cx s0) = c_models c -> ev s0 = [] ->
  plays c p m0 -> mo_kind m0 <> KDynObstacle -> forall i t out, ~ In (EEnv p i t true out) (ev s).
Proof.
  intros S D A M0 E0 Hp Hk. pose proof (run_micro c s0 0 s0 k s S D (after_0 s0) A) as Mi.
  assert (Z : (forall m : model, dget (fst (snap_of s)) p = Some m -> mo_kind m <> KDynObstacle) /\ forall i t out, ~ In (EEnv p i t true out) (snd (snap_of s))).
  { refine (many_inv (change _ _) (fun x : list (player * w_M (sim_world L C env)) * list (event (sim_world L C env)) => (forall m : model, dget (fst x) p = Some m -> mo_kind m <> KDynObstacle) /\ forall i t out, ~ In (EEnv p i t true out) (snd x)) _ _ _ Mi _).
    - intros x y Ch [Z1 Z2]. destruct Ch as [Q|[t' Q]].
      + destruct Q as [| |ms l p0 t' u a b Ha Sa]; cbn [fst snd] in *.
        * split; [exact Z1|]. intros i' t1 o1 [X|X]; [discriminate X|exact (Z2 _ _ _ X)].
        * split; [exact Z1|]. intros i' t1 o1 [X|X]; [discriminate X|exact (Z2 _ _ _ X)].
        * split; [|intros i' t1 o1 [X|X]; [discriminate X|exact (Z2 _ _ _ X)]]. intros m1 H1. destruct (Nat.eq_dec p p0) as [->|N]; [|rewrite dget_dset_other in H1 by congruence; auto].
          rewrite dget_dset_same in H1. injection H1 as <-. rewrite (proj1 (proj1 (C122_frame_pf _ _ _ _ _ Sa))). auto.
      + destruct Q as [ms l p0 i' ob a b o Ha Sa _|ms l p0 q a b a' b' o N Ha Hb Sa _]; cbn [fst snd] in *.
        * assert (Kb : mo_kind b = mo_kind a) by (destruct (env_cases _ _ _ _ _ _ _ _ Sa) as [[-> _]|[[Y _] _]]; [reflexivity|apply Y]).
          split; [intros m1 H1; destruct (Nat.eq_dec p p0) as [->|N]; [rewrite dget_dset_same in H1; injection H1 as <-; rewrite Kb; auto|rewrite dget_dset_other in H1 by congruence; auto]|].
          intros j t1 o1 [X|X]; [|exact (Z2 _ _ _ X)]. injection X as -> _ _ X _. specialize (Z1 a Ha). rewrite <- Kb in Z1. cbn in X. destruct (mo_kind b); try discriminate. congruence.
        * assert (Kb : mo_kind a' = mo_kind a /\ mo_kind b' = mo_kind b) by (destruct (resolve_cases _ _ _ _ _ _ _ _ _ _ _ Sa) as [(-> & -> & _)|([Y _] & [Y' _] & _)]; [auto|split; [apply Y|apply Y']]).
          destruct Kb as [Ka Kb]. split; [|intros j t1 o1 [X|X]; [discriminate X|exact (Z2 _ _ _ X)]]. intros m1 H1.
          destruct (Nat.eq_dec p q) as [->|Nq]; [rewrite dget_dset_same in H1; injection H1 as <-; rewrite Kb; auto|rewrite dget_dset_other in H1 by congruence].
          destruct (Nat.eq_dec p p0) as [->|Np]; [rewrite dget_dset_same in H1; injection H1 as <-; rewrite Ka; auto|rewrite dget_dset_other in H1 by congruence; auto].
    - cbn [fst snd snap_of]. rewrite M0, E0. split; [|intros ? ? ? []]. unfold plays in Hp. intros m1 H1. rewrite Hp in H1. injection H1 as <-. exact Hk. }
  exact (proj2 Z).
Qed.

Theorem C123_flag_means_report : forall L C env (c : ctx (sim_world L C env)) m fuel sf p (m0 mf : model), valid_ctx c -> unused m -> (0 < dt (g_param (c_cfg c)))%Qc -> run fuel m c = Some (Ok sf) ->
  plays c p m0 -> mo_collided m0 = false -> mo_kind m0 <> KDynObstacle -> model_of sf p = Some mf -> mo_collided mf = true -> exists r, In r (c_reports (cx sf)) /\ In p (r_players r).
Proof.
  intros L C env c m fuel sf p m0 mf V U D R Hp Hc Hk Hf Hx.
  destruct (run_until L C env (fun q m => q = p -> mo_collided m = false) c m fuel sf V U D R) as [F _].
  - intros q a u b I H ->. rewrite (proj1 (proj2 (C122_frame_pf _ _ _ _ _ H))). auto.
  - intros q a Q ->. unfold plays in *. assert (a = m0) as -> by congruence. exact Hc.
  - destruct (F p mf Hf) as [X|[(r & R1 & R2)|(i & t & out & I)]]; [rewrite X in Hx by reflexivity; discriminate| |].
    + exists r. split; [|exact R2]. rewrite (run_reports _ _ _ _ _ V U D R). apply in_or_app. right. exact R1.
    + exfalso. destruct (run_log _ _ _ _ V U D R) as (s0 & k & s & S & A & M0 & E0 & Mf & _ & Ef & _).
      rewrite Ef in I. exact (no_dyn_event L C env c s0 k s p m0 S D A M0 E0 Hp Hk _ _ _ I).
Qed.

(** The converse, for a name of the environment that no player has. *)
Theorem C123_report_means_flag : forall L C env (c : ctx (sim_world L C env)) m fuel sf p (mf : model) r, valid_ctx c -> unused m -> (0 < dt (g_param (c_cfg c)))%Qc -> run fuel m c = Some (Ok sf) ->
  c_reports c = [] -> ~ In env (akeys (c_models c)) -> In r (c_reports (cx sf)) -> In p (r_players r) -> model_of sf p = Some mf -> r_data r <> None -> mo_collided mf = true.
Proof.
  intros L C env c m fuel sf p mf r V U D R R0 He Hr Hp Hf Hd.
  rewrite (run_reports _ _ _ _ _ V U D R), R0 in Hr. cbn [app] in Hr.
  destruct (run_log _ _ _ _ V U D R) as (s0 & k & s & S & A & M0 & E0 & Mf & _ & Ef & _). rewrite Ef in Hr. unfold model_of in Hf. rewrite Mf in Hf.
  pose proof (run_micro c s0 0 s0 k s S D (after_0 s0) A) as Mi.
  assert (Z : dget (fst (snap_of s)) env = None /\ forall r, In r (expected_reports (snd (snap_of s))) -> r_data r <> None -> forall p (m : model), In p (r_players r) -> dget (fst (snap_of s)) p = Some m -> mo_collided m = true).
  { refine (many_inv (change _ _) (fun x : list (player * w_M (sim_world L C env)) * list (event (sim_world L C env)) => dget (fst x) env = None /\ forall r, In r (expected_reports (snd x)) -> r_data r <> None -> forall p (m : model), In p (r_players r) -> dget (fst x) p = Some m -> mo_collided m = true) _ _ _ Mi _).
    - intros x y Ch [Z1 Z2]. destruct Ch as [Q|[t' Q]].
      + destruct Q as [| |ms l p0 t' u a b Ha Sa]; cbn [fst snd] in *; (split; [try exact Z1|intros r1; rewrite expected_cons; cbn; rewrite app_nil_r; try (apply Z2)]).
        * rewrite dget_dset_other by congruence. exact Z1.
        * intros I1 I2 p1 m1 I3 I4. destruct (Nat.eq_dec p1 p0) as [->|N]; [|rewrite dget_dset_other in I4 by congruence; eauto].
          rewrite dget_dset_same in I4. injection I4 as <-. rewrite (proj1 (proj2 (C122_frame_pf _ _ _ _ _ Sa))). eauto.
      + destruct Q as [ms l p0 i' ob a b o Ha Sa _|ms l p0 q a b a' b' o N Ha Hb Sa _]; cbn [fst snd] in *.
        * split; [rewrite dget_dset_other by congruence; exact Z1|]. intros r1 I1 I2 p1 m1 I3 I4. rewrite expected_cons in I1. apply in_app_or in I1 as [I1|I1].
          -- destruct (Nat.eq_dec p1 p0) as [->|N]; [|rewrite dget_dset_other in I4 by congruence; eauto]. rewrite dget_dset_same in I4. injection I4 as <-.
             destruct (env_cases _ _ _ _ _ _ _ _ Sa) as [[-> _]|[H _]]; [eauto|apply H].
          -- destruct (env_cases _ _ _ _ _ _ _ _ Sa) as [[-> [->|[e ->]]]|[H [[e ->]|(d & -> & _)]]]; unfold expected_reports in I1; cbn in I1;
             destruct (mo_kind _); cbn in I1; try contradiction; destruct I1 as [<-|[]]; try (exfalso; apply I2; reflexivity);
             (destruct I3 as [<-|[<-|[]]]; [rewrite dget_dset_same in I4; injection I4 as <-; apply H|rewrite dget_dset_other in I4 by congruence; rewrite Z1 in I4; discriminate]).
        * split; [rewrite !dget_dset_other by congruence; exact Z1|]. intros r1 I1 I2 p1 m1 I3 I4. rewrite expected_cons in I1.
          destruct (resolve_cases _ _ _ _ _ _ _ _ _ _ _ Sa) as [(-> & -> & O)|(Xa & Xb & O)].
          -- apply in_app_or in I1 as [I1|I1]; [|destruct O as [->|[e ->]]; unfold expected_reports in I1; cbn in I1; [contradiction|destruct I1 as [<-|[]]; exfalso; apply I2; reflexivity]].
             destruct (Nat.eq_dec p1 q) as [->|Nq]; [rewrite dget_dset_same in I4; injection I4 as <-; eauto|rewrite dget_dset_other in I4 by congruence].
             destruct (Nat.eq_dec p1 p0) as [->|Np]; [rewrite dget_dset_same in I4; injection I4 as <-; eauto|rewrite dget_dset_other in I4 by congruence; eauto].
          -- destruct (Nat.eq_dec p1 q) as [->|Nq]; [rewrite dget_dset_same in I4; injection I4 as <-; apply Xb|rewrite dget_dset_other in I4 by congruence].
             destruct (Nat.eq_dec p1 p0) as [->|Np]; [rewrite dget_dset_same in I4; injection I4 as <-; apply Xa|rewrite dget_dset_other in I4 by congruence].
             apply in_app_or in I1 as [I1|I1]; [eauto|]. destruct O as [[e ->]|(d & -> & _)]; unfold expected_reports in I1; cbn in I1; (destruct I1 as [<-|[]]); cbn in I3; destruct I3 as [<-|[<-|[]]]; congruence.
    - cbn [fst snd snap_of]. rewrite M0, E0. split; [apply dget_None; exact He|]. intros ? []. }
  eapply (proj2 Z); eassumption.
Qed.

(** The players of an iteration collide whose footprints, of the models they have then,
    intersect for shapely. *)
Theorem C123_collisions : forall L C env (c : ctx (sim_world L C env)) s0 k s s', started c s0 -> (0 < dt (g_param (c_cfg c)))%Qc -> (forall f g, CollModel.intersects (li_shapely L) f g = CollModel.intersects (li_shapely L) g f) ->
  after s0 k s -> c_term (cx s) = false -> step s = Ok s' -> c_term (cx s') = false ->
  exists np, SimulatorSpec.pairs_of (ev s') = (SimulatorSpec.pairs_of (ev s) ++ map (fun pq => (fst pq, snd pq, time s')) np)%list /\
    forall p q (a b : model) fa fb, p <> q -> active s' p -> active s' q -> model_of s' p = Some a -> model_of s' q = Some b ->
      get_footprint (li_union L) (li_quad L) (li_valid L) a = Ok fa -> get_footprint (li_union L) (li_quad L) (li_valid L) b = Ok fb ->
      (In (p, q) np \/ In (q, p) np <-> CollModel.intersects (li_shapely L) fa fb = true).
Proof.
  intros L C env c s0 k s s' S D Sy A T H T'. destruct (C27_every_touching_pair_once_pf _ c s0 k s s' S D (proj1 (C123_laws_pf L C env)) Sy A T H) as (np & E & _ & _ & _ & I).
  exists np. split; [exact E|]. intros p q a b fa fb Npq Ap Aq Ma Mb Fa Fb. rewrite (I T' p q).
  assert (X : SimulatorSpec.touches s' p q = CollModel.intersects (li_shapely L) fa fb).
  { unfold SimulatorSpec.touches. rewrite Ma, Mb. cbn. rewrite Fa, Fb. reflexivity. }
  rewrite X. tauto.
Qed.

(** Reports say in their data whom and when they are about. *)
Theorem C123_report_data : forall L C env (c : ctx (sim_world L C env)) m fuel sf r d, valid_ctx c -> unused m -> (0 < dt (g_param (c_cfg c)))%Qc -> run fuel m c = Some (Ok sf) ->
  c_reports c = [] -> ~ In env (akeys (c_models c)) -> In r (c_reports (cx sf)) -> r_data r = Some d -> map fst (rep_players (Loc := string) d) = r_players r /\ rep_time d = seconds (r_time r) /\
    exists p q, r_players r = [p; q] /\ p <> q /\ In p (akeys (c_models c)) /\ (In q (akeys (c_models c)) \/ q = env).
Proof.
  intros L C env c m fuel sf r d V U D R R0 He Hr Hd.
  rewrite (run_reports _ _ _ _ _ V U D R), R0 in Hr. cbn [app] in Hr.
  destruct (run_log _ _ _ _ V U D R) as (s0 & k & s & S & A & M0 & E0 & Mf & _ & Ef & _). rewrite Ef in Hr.
  pose proof (run_micro c s0 0 s0 k s S D (after_0 s0) A) as Mi.
  set (G := fun (r : SimulatorModel.report (CollModel.report (Sh := list vec) string)) => forall d, r_data r = Some d -> map fst (rep_players d) = r_players r /\ rep_time d = seconds (r_time r) /\
    exists p q, r_players r = [p; q] /\ p <> q /\ In p (akeys (c_models c)) /\ (In q (akeys (c_models c)) \/ q = env)).
  assert (Z : akeys (fst (snap_of s)) = akeys (c_models c) /\ forall r, In r (expected_reports (snd (snap_of s))) -> G r).
  { refine (many_inv (change _ _) (fun x : list (player * w_M (sim_world L C env)) * list (event (sim_world L C env)) => akeys (fst x) = akeys (c_models c) /\ forall r, In r (expected_reports (snd x)) -> G r) _ _ _ Mi _).
    - intros x y Ch [Z1 Z2]. destruct Ch as [Q|[t' Q]].
      + destruct Q as [| |ms l p0 t' u a b Ha Sa]; cbn [fst snd] in *; (split; [try exact Z1|intros r1; rewrite expected_cons; cbn; rewrite app_nil_r; apply Z2]).
        rewrite keys_dset; [exact Z1|exact (dget_Some_In _ _ _ Ha)].
      + destruct Q as [ms l p0 i' ob a b o Ha Sa _|ms l p0 q a b a' b' o N Ha Hb Sa _]; cbn [fst snd] in *.
        * assert (Ip : In p0 (akeys ms)) by exact (dget_Some_In _ _ _ Ha). split; [rewrite keys_dset by exact Ip; exact Z1|].
          intros r1 I1. rewrite expected_cons in I1. apply in_app_or in I1 as [I1|I1]; [auto|]. rewrite Z1 in Ip.
          destruct (env_cases _ _ _ _ _ _ _ _ Sa) as [[-> [->|[e ->]]]|[H [[e ->]|(d' & -> & E1 & E2)]]]; unfold expected_reports in I1; cbn in I1;
          destruct (mo_kind _); cbn in I1; try contradiction; destruct I1 as [<-|[]]; intros d1; cbn [r_data]; try discriminate;
          (intros [= <-]; split; [exact E1|]; split; [exact E2|]; exists p0, env; cbn; repeat split; auto; congruence).
        * assert (Ip : In p0 (akeys ms)) by exact (dget_Some_In _ _ _ Ha). assert (Iq : In q (akeys ms)) by exact (dget_Some_In _ _ _ Hb).
          split; [rewrite keys_dset; [rewrite keys_dset by exact Ip; exact Z1|apply In_keys_dset; right; exact Iq]|].
          intros r1 I1. rewrite expected_cons in I1. apply in_app_or in I1 as [I1|I1]; [auto|]. rewrite Z1 in Ip, Iq.
          destruct (resolve_cases _ _ _ _ _ _ _ _ _ _ _ Sa) as [(-> & -> & [->|[e ->]])|(Xa & Xb & [[e ->]|(d' & -> & E1 & E2)])]; unfold expected_reports in I1; cbn in I1; try contradiction;
          destruct I1 as [<-|[]]; intros d1; cbn [r_data]; try discriminate.
          intros [= <-]. split; [exact E1|]. split; [exact E2|]. exists p0, q. cbn. auto.
    - cbn [fst snd snap_of]. rewrite M0, E0. split; [reflexivity|]. intros ? []. }
  exact (proj2 Z r Hr d Hd).
Qed.

(** A company of agents that always send the same commands, and an integrator that never
    moves anything: enough for examples. *)
Definition stubborn : company := mkCompany obj unit unit unit unit unit (fun a _ _ _ _ _ => Ok a) (fun a _ => Ok (a, a)) (fun a => Ok (a, None)) (fun _ _ _ => Ok false) (fun s _ o _ => Ok (s, o)) tt (fun _ _ => tt) (fun _ => None) (fun _ => []) (fun _ _ => []).

Definition idle : (list R -> result (list R)) -> R -> list R -> result (list R) := fun _ _ y => Ok y.

Definition plain_library (sh : shapely (list vec)) solve : library := mkLib joined_points 16 any_shape mean_centroid sh solve.

Lemma idle_update m u d z : instance_of (state_class (mo_kind m)) (mo_state m) -> as_ndarray (command_class (mo_kind m)) u = Ok z -> List.length z = List.length (c_idx (command_class (mo_kind m))) ->
  model_update idle m u d = Ok m.
Proof.
  intros I Z Lz. unfold model_update, idle. rewrite Z. cbn [bind]. unfold stateactions_from_array. destruct (ignores m); destruct m as [k st xt ge pa sh ty co]; cbn [mo_kind mo_state] in *; clear Z u;
  (destruct k; cbn [state_class command_class] in *; inst st I; cbn in Lz;
  repeat (let r := fresh "w" in destruct z as [|r z]; [discriminate Lz|]); (destruct z; [|discriminate Lz]); reflexivity).
Qed.

(** Two iterations of the simulator: two players collide in the first, the second is one
    too many. *)
Ltac stage := lazy - [w_X w_U w_M w_A w_G w_S w_F w_O w_E w_I w_D w_scen get_state footprint intersects is_dyn model_step agent_init agent_cmds agent_extra goal_done sense id_filter cpu_time env_query obstacles resolve resolve_env].

Lemma two_steps (W : world) (sc : w_scen W) (A B : w_A W) (u v : w_U W) (a b a' b' : w_M W) r :
  (forall p n g m, agent_init W A p n sc g m = Ok A) -> (forall p n g m, agent_init W B p n sc g m = Ok B) -> (forall o, agent_cmds W A o = Ok (A, u)) -> (forall o, agent_cmds W B o = Ok (B, v)) ->
  agent_extra W A = Ok (A, None) -> agent_extra W B = Ok (B, None) -> (forall o p, sense W (id_filter W) sc o p = Ok (id_filter W, o)) -> (forall f, env_query W sc f = []) ->
  (forall d, model_step W a u d = Ok a) -> (forall d, model_step W b v d = Ok b) -> (forall d, model_step W a' u d = Ok a') -> (forall d, model_step W b' v d = Ok b') ->
  intersects W (footprint W a) (footprint W b) = true -> resolve W sc 1 2 (qz (-1) + qz 1)%Qc a b = ((a', b'), Ok (Some r)) ->
  let c := mkCtx (mkConfig sc (mkParam (qz 1) (qz 1) (qz 0) (qz 10)) [] true 0%nat) [(1%nat, a); (2%nat, b)] [(1%nat, A); (2%nat, B)] [] [] (qz (-1)) false [] None in
  valid_ctx c /\ exists sf, run 3 new_simulator c = Some (Ok sf) /\ model_of sf 1 = Some a' /\ model_of sf 2 = Some b' /\ c_reports (cx sf) = [r] /\ logged sf 1 (qz (-1)) (get_state W a) /\ logged sf 1 (qz (-1) + qz 1)%Qc (get_state W a').
Proof.
  intros IA IB CA CB XA XB SE Q Sa Sb Sa' Sb' It Re c. split.
  { split; [reflexivity|]. repeat split; cbn; repeat constructor; cbn; intuition congruence. }
  revert Re. match goal with |- ?P -> _ => let Q := eval lazy - [w_X w_U w_M w_A w_G w_S w_F w_O w_E w_I w_D w_scen get_state footprint intersects is_dyn model_step agent_init agent_cmds agent_extra goal_done sense id_filter cpu_time env_query obstacles resolve resolve_env] in P in change P with Q end. intro Re.
  eassert (E0 : init_run c new_simulator = Ok _) by (stage; rewrite !IA; stage; rewrite !IB; stage; reflexivity).
  match type of E0 with _ = Ok ?s => eassert (E1 : pre_update s = Ok _) by (stage; reflexivity) end.
  match type of E1 with _ = Ok ?s => eassert (E2 : update_player (qz (-1)) s 1%nat = Ok _) by (stage; rewrite SE; stage; rewrite CA; stage; rewrite XA; stage; rewrite Sa; stage; reflexivity) end.
  match type of E2 with _ = Ok ?s => eassert (E3 : update_player (qz (-1)) s 2%nat = Ok _) by (stage; rewrite SE; stage; rewrite CB; stage; rewrite XB; stage; rewrite Sb; stage; reflexivity) end.
  match type of E3 with _ = Ok ?s => eassert (E4 : (if need_commands s then Ok (upd_sm s (set_last (sm s) (Some (qz (-1))))) else Ok s) = Ok _) by (stage; reflexivity) end.
  match type of E4 with _ = Ok ?s => eassert (E5 : post_update s = Ok _) by (stage; rewrite !Q; stage; rewrite It; stage; rewrite Re; stage; reflexivity) end.
  match type of E5 with _ = Ok ?s => eassert (E6 : pre_update s = Ok _) by (stage; reflexivity) end.
  match type of E6 with _ = Ok ?s => eassert (E7 : update_player (qz (-1) + qz 1)%Qc s 1%nat = Ok _) by (stage; rewrite SE; stage; rewrite CA; stage; rewrite XA; stage; rewrite Sa'; stage; reflexivity) end.
  match type of E7 with _ = Ok ?s => eassert (E8 : update_player (qz (-1) + qz 1)%Qc s 2%nat = Ok _) by (stage; rewrite SE; stage; rewrite CB; stage; rewrite XB; stage; rewrite Sb'; stage; reflexivity) end.
  match type of E8 with _ = Ok ?s => eassert (E9 : (if need_commands s then Ok (upd_sm s (set_last (sm s) (Some (qz (-1) + qz 1)%Qc))) else Ok s) = Ok _) by (stage; reflexivity) end.
  match type of E9 with _ = Ok ?s => eassert (E10 : post_update s = Ok _) by (stage; reflexivity) end.
  match type of E10 with _ = Ok ?s => eassert (E11 : write_logs s = Ok _) by (stage; reflexivity) end.
  assert (K1 : forall s x1 x2 x3 x4 x5, pre_update s = Ok x1 -> akeys (c_players (cx x1)) = [1; 2]%nat -> update_player (time x1) x1 1%nat = Ok x2 -> update_player (time x1) x2 2%nat = Ok x3 ->
    (if need_commands x3 then Ok (upd_sm x3 (set_last (sm x3) (Some (time x1)))) else Ok x3) = Ok x4 -> post_update x4 = Ok x5 -> step (W := W) s = Ok x5).
  { intros s x1 x2 x3 x4 x5 H1 H2 H3 H4 H5 H6. unfold step, update. rewrite H1, H2. cbn [rfold]. rewrite H3. rewrite H4, H5. exact H6. }
  eexists. split; [unfold run; rewrite E0; cbn [loop]; cbn [c_term cx]; rewrite (K1 _ _ _ _ _ _ E1 eq_refl E2 E3 E4 E5); cbn [c_term cx]; rewrite (K1 _ _ _ _ _ _ E6 eq_refl E7 E8 E9 E10); cbn [c_term cx]; rewrite E11; reflexivity|].
  clear. split; [reflexivity|]. split; [reflexivity|]. split; [reflexivity|]. split; (eexists; split; [reflexivity|]); cbn; [left; reflexivity|right; left; reflexivity].
Qed.

Lemma crash_resolves sh solve t ms' rep n P a b a' b' : seconds t = 0 -> crash joined_points 16 any_shape mean_centroid sh 1 2 [(1%nat, a); (2%nat, b)] None 0 ms' rep n P a b a' b' ->
  resolve_models (plain_library sh solve) stubborn tt 1 2 t a b = ((a', b'), Ok (Some (as_report t rep))).
Proof.
  intros T (_ & H & _ & _ & _ & _ & A & B & _). unfold resolve_models. cbn [Nat.eqb co_net stubborn li_shapely plain_library]. rewrite T. unfold seen_by. cbn [li_union li_quad li_valid li_centroid plain_library].
  rewrite H, A, B. reflexivity.
Qed.

Lemma t_zero : seconds (qz (-1) + qz 1)%Qc = 0.
Proof. unfold seconds, Q2R. cbn. lra. Qed.

(** A car from the shelf, and a block that runs into it. *)
Definition steer : obj := mkO "VehicleCommands" [("acc", Num 1); ("ddelta", Num 0); ("lights", Lights "off")].

Definition drift : obj := mk cDynObstacleCommands [0; 0; 0].

Definition crash_site : shapely (list vec) := meets (18 / 10, 0) (1, 0) (4 / 10).

Definition rogue : model := block (21 / 10) 0 (-1) 1300 1600 (5 / 10).

Definition crash_world : world := sim_world (plain_library crash_site idle) stubborn 0.

Definition scene (car : model) : ctx crash_world := mkCtx (W := crash_world) (mkConfig (W := crash_world) tt (mkParam (qz 1) (qz 1) (qz 0) (qz 10)) [] true 0%nat) [(1%nat, car); (2%nat, rogue)] [(1%nat, steer); (2%nat, drift)] [] [] (qz (-1)) false [] None.

Lemma scene_runs : exists car car' rogue' rep sf, default_model Car (mk cVehicleState [0; 0; 0; 1; 0]) = Ok car /\ mo_kind car = KVehicle /\ mo_collided car = false /\ valid_ctx (scene car) /\ run 3 new_simulator (scene car) = Some (Ok sf) /\ model_of sf 1 = Some car' /\ model_of sf 2 = Some rogue' /\
  c_reports (cx sf) = [as_report (qz (-1) + qz 1)%Qc rep] /\ map fst (rep_players rep) = [1; 2]%nat /\ mo_collided car' = true /\ logged sf 1 (qz (-1)) (mo_state car : w_X crash_world) /\ logged sf 1 (qz (-1) + qz 1)%Qc (mo_state car' : w_X crash_world) /\
  fits KVehicle (mo_state car).
Proof.
  destruct (presets Car (mk cVehicleState [0; 0; 0; 1; 0])) as (p & g & E0 & _ & -> & _); [discriminate|].
  destruct (a_car 0 0 0 1 0) as (ma & E & K & G & St & Ia & Sa & D & VX & Wa & Ma & xa & la & La). assert (Co : mo_collided ma = false) by (rewrite E0 in E; apply OI in E; subst ma; reflexivity). clear E0.
  destruct (a_block (21 / 10) 0 (-1) 1300 1600 (5 / 10)) as (Hb & Ib & Sb & Wb & Mb & xb & lb & Lb); [lra|lra|]. fold rogue in *.
  assert (Ma' : ImpactSpec.moves ma (1, 0) 0) by (unfold ImpactSpec.moves in *; rewrite Ma; f_equal; unfold in_world; cbn [fst snd]; rewrite tan_0, cos_0, sin_0; repeat (apply pair_equal_spec; split); field).
  assert (N1 : vdot ((1, 0) : vec) (1, 0) = 1) by (unfold vdot; cbn; lra).
  destruct (happens (18 / 10, 0) (1, 0) (4 / 10) ma rogue (1, 0) 0 (-1, 0) 0 (0, 0) 0 (21 / 10, 0) 0 la lb xa xb N1 ltac:(lra) ltac:(unfold vdot; cbn; lra) Ia Ib Ma' Mb Sa Sb La Lb) as (ms' & rep & na & nb & C).
  { unfold contact, vdot, vsub. cbn [fst snd]. lra. }
  pose proof (crash_resolves crash_site idle _ _ _ _ _ _ _ _ _ t_zero C) as Re.
  assert (Fa : fits (mo_kind ma) (mo_state ma)).
  { rewrite K, St. split; [|intros _; apply inst_mk; [nolights|reflexivity]]. intros f If. cbn in If. repeat (destruct If as [<-|If]; [eexists; reflexivity|]). destruct If. }
  assert (Fb : fits (mo_kind rogue) (mo_state rogue)).
  { split; [|intros _; exact Ib]. intros f If. cbn in If. repeat (destruct If as [<-|If]; [eexists; reflexivity|]). destruct If. }
  destruct (resolve_cases _ _ _ _ _ _ _ _ _ _ _ Re) as [(_ & _ & [H|[e H]])|(Ha & Hb' & [[e H]|(d & H & Pd & _)])]; try discriminate H.
  destruct Ha as (Ka & Sta & Fa'). destruct Hb' as (Kb & Stb & Fb'). specialize (Fa' Fa). specialize (Fb' Fb). assert (K' : mo_kind na = KVehicle) by (rewrite (proj1 Ka); exact K). assert (Kb2 : mo_kind nb = KDynObstacle) by (rewrite (proj1 Kb); reflexivity).
  destruct (two_steps crash_world tt steer drift steer drift ma rogue na nb (as_report (qz (-1) + qz 1)%Qc rep)) as (V & sf & R & M1 & M2 & Rp & L1 & L2); try reflexivity.
  - intro d0. apply (idle_update ma _ (seconds d0) [1; 0] Ia); rewrite K; reflexivity.
  - intro d0. apply (idle_update na _ (seconds d0) [1; 0]); [apply Fa'; rewrite K'; discriminate|rewrite K'; reflexivity|rewrite K'; reflexivity].
  - intro d0. apply (idle_update nb _ (seconds d0) [0; 0; 0]); [apply Fb'; rewrite Kb2; discriminate|rewrite Kb2; reflexivity|rewrite Kb2; reflexivity].
  - exact Re.
  - exists ma, na, nb, rep, sf. split; [exact E|]. split; [exact K|]. split; [exact Co|]. split; [exact V|]. split; [exact R|]. split; [exact M1|]. split; [exact M2|]. split; [exact Rp|].
    split; [apply OI in H; injection H as _ ->; exact Pd|]. split; [apply Sta|]. split; [exact L1|]. split; [exact L2|]. rewrite <- K. exact Fa.
Qed.

(** A car from the shelf hit by a block in the second iteration meets the hypotheses. *)
Example C123_ex : exists car car' rep sf, default_model Car (mk cVehicleState [0; 0; 0; 1; 0]) = Ok car /\ valid_ctx (scene car) /\ unused (new_simulator : simulator crash_world) /\ (0 < dt (g_param (c_cfg (scene car))))%Qc /\
  run 3 new_simulator (scene car) = Some (Ok sf) /\ plays (scene car) 1 car /\ mo_collided car = false /\ mo_kind car <> KDynObstacle /\ fits (mo_kind car) (mo_state car) /\ logged sf 1 (qz (-1)) (mo_state car : w_X crash_world) /\
  c_reports (scene car) = [] /\ ~ In 0%nat (akeys (c_models (scene car))) /\ model_of sf 1 = Some car' /\ mo_collided car' = true /\ In (as_report (qz (-1) + qz 1)%Qc rep) (c_reports (cx sf)) /\ r_data (as_report (qz (-1) + qz 1)%Qc rep) = Some rep.
Proof.
  destruct scene_runs as (car & car' & rogue' & rep & sf & E & K & Co & V & R & M1 & _ & Rs & _ & Cx & L1 & _ & F). exists car, car', rep, sf.
  split; [exact E|]. split; [exact V|]. split; [reflexivity|]. split; [reflexivity|]. split; [exact R|]. split; [reflexivity|]. split; [exact Co|]. split; [rewrite K; discriminate|]. split; [rewrite K; exact F|]. split; [exact L1|]. split; [reflexivity|].
  split; [intros [H|[H|[]]]; discriminate|]. split; [exact M1|]. split; [exact Cx|]. split; [rewrite Rs; left; reflexivity|reflexivity].
Qed.

(** ** C124, C125  limits along exact motions *)

Lemma update_path solve m u T m' : exact solve -> model_update solve m u T = Ok m' -> exists path rates : R -> list R,
  (forall t, 0 <= t <= T -> List.length (path t) = List.length (path 0)) /\ List.length (path 0) = (List.length (c_idx (state_class (mo_kind m))) + List.length (c_as (command_class (mo_kind m))))%nat /\
  (forall t, 0 <= t < T -> ivp_rates m (path t) = Ok (rates t)) /\
  (forall f i, In (f, i) (c_idx (state_class (mo_kind m))) -> evolves (fun t => nth i (path t) 0) (fun t => nth i (rates t) 0) T /\ has (mo_state m) f (nth i (path 0) 0) /\ has (mo_state m') f (nth i (path T) 0)).
Proof.
  intros E H. apply update_reads in H as (x0 & u0 & y & A & B & S & F & ->). cbn [set_state mo_state] in *.
  destruct (E _ _ _ _ S) as (path & rates & P0 & PT & PL & PR & PE). exists path, rates.
  apply array_reads in A as (LA & A). apply from_reads in F as (LF & _ & F).
  assert (LB : List.length u0 = List.length (c_as (command_class (mo_kind m)))).
  { clear - B. unfold as_ndarray in B. destruct (mo_kind m); cbn in B; repeat (match type of B with context [getattr u ?f] => destruct (getattr u f) as [[?r|?]|]; cbn in B; try discriminate end); apply OI in B; subst u0; reflexivity. }
  split; [intros t Ht; rewrite P0; apply PL; exact Ht|]. split; [rewrite P0, app_length, LA, LB; reflexivity|]. split; [exact PR|].
  intros f i I. assert (Li : (i < List.length x0)%nat).
  { rewrite LA. clear - I. destruct (mo_kind m); cbn in I |- *; repeat (destruct I as [I|I]; [injection I as <- <-; lia|]); destruct I. }
  split; [apply PE; rewrite app_length; lia|]. split.
  - rewrite P0, app_nth1 by exact Li. apply A. exact I.
  - rewrite PT. specialize (F f i I). rewrite <- LA in F. rewrite <- (firstn_skipn (List.length x0) y). rewrite app_nth1; [exact F|]. rewrite LF, <- LA in F || idtac. rewrite <- LA in LF. rewrite LF. exact Li.
Qed.

Lemma coordinate solve m u T m' f i lo hi : exact solve -> 0 <= T -> model_update solve m u T = Ok m' -> In (f, i) (c_idx (state_class (mo_kind m))) ->
  (forall y r, List.length y = (List.length (c_idx (state_class (mo_kind m))) + List.length (c_as (command_class (mo_kind m))))%nat -> ivp_rates m y = Ok r -> (hi <= nth i y 0 -> nth i r 0 <= 0) /\ (nth i y 0 <= lo -> 0 <= nth i r 0)) ->
  keeps (mo_state m) f lo hi -> keeps (mo_state m') f lo hi.
Proof.
  intros E HT H I B (r & Hr & W). destruct (update_path _ _ _ _ _ E H) as (path & rates & L1 & L2 & PR & PE). destruct (PE f i I) as (Ev & H0 & H1).
  assert (r = nth i (path 0) 0) as -> by (unfold has in *; congruence). exists (nth i (path T) 0). split; [exact H1|].
  apply (stays_within _ _ T lo hi Ev); [| |exact W|lra]; intros t Ht K; (destruct (B (path t) (rates t)) as [B1 B2]; [rewrite L1 by lra; exact L2|apply PR; exact Ht|]); auto.
Qed.

Ltac unpack y Ly := repeat (let r := fresh "y" in destruct y as [|r y]; [discriminate Ly|]); (destruct y; [|discriminate Ly]); clear Ly.

Lemma held_update solve m u T m' f lo hi : exact solve -> 0 <= T -> model_update solve m u T = Ok m' -> held m f lo hi -> (forall vx acc d dd, mo_params m = PVehicle vx acc d dd -> 0 < dd) ->
  keeps (mo_state m) f lo hi -> keeps (mo_state m') f lo hi.
Proof.
  intros E HT H G Pd. unfold held in G. destruct (mo_kind m) eqn:K; try contradiction; destruct (mo_params m) as [|vx acc d dd| | | | |vx acc mv ct F d dd|vx acc mv ct F d dd] eqn:P; try contradiction.
  - destruct G as (-> & -> & ->). specialize (Pd _ _ _ _ eq_refl). apply (coordinate solve m u T m' "delta" 4 (- d) d E HT H); [rewrite K; cbn; tauto|]. rewrite K. cbn [state_class command_class]. intros y r Ly. cbn in Ly. unpack y Ly.
    destruct (as_vgeo (mo_geo m)) as [g|e] eqn:Gq; [|intro X; exfalso; unfold ivp_rates, stateactions_from_array, dynamics in X; rewrite K, P, Gq in X; destruct (ignores m); cbn in X; discriminate X].
    intro X. rewrite (rates_vehicle m vx acc d dd g (mkV y0 y1 y2 y3 y4) (mkVCm y5 y6) K P Gq : ivp_rates m [y0; y1; y2; y3; y4; y5; y6] = _) in X. apply OI in X. subst r. cbn. split; [apply steer_at_max|apply steer_at_min]; exact Pd.
  - destruct G as (-> & -> & ->). specialize (Pd _ _ _ _ eq_refl). apply (coordinate solve m u T m' "delta" 6 (- d) d E HT H); [rewrite K; cbn; tauto|]. rewrite K. cbn [state_class command_class]. intros y r Ly. cbn in Ly. unpack y Ly. intro X.
    destruct (as_vgeo (mo_geo m)) as [g|e] eqn:Gq; [|exfalso; unfold ivp_rates, stateactions_from_array, dynamics in X; rewrite K, P, Gq in X; destruct (ignores m); cbn in X; discriminate X].
    destruct (to_dst (mo_state m)) as [self|e] eqn:Sq; [|exfalso; unfold ivp_rates, stateactions_from_array, dynamics in X; rewrite K, P, Gq, Sq in X; destruct (ignores m); cbn in X; discriminate X].
    destruct (mo_tyres m) as [[pf pr]|] eqn:Tq; [|exfalso; unfold ivp_rates, stateactions_from_array, dynamics in X; rewrite K, P, Gq, Sq, Tq in X; destruct (ignores m); cbn in X; discriminate X].
    pose proof (rates_dyn m vx acc d dd g pf pr self (mkD y0 y1 y2 y3 y4 y5 y6) (mkVCm y7 y8) K P Gq Tq Sq) as Y.
    destruct (vehicle_dyn_dynamics _ _ _ _ _ _ _ _) as [dx|] eqn:Dq; [|destruct Y as [e Y]; assert (X' : Err e = Ok r) by (rewrite <- X, <- Y; reflexivity); discriminate X'].
    assert (X' : Ok (arr7 dx ++ [0; 0])%list = Ok r) by (rewrite <- X, <- Y; reflexivity). apply OI in X'. subst r. cbn.
    assert (Dd : d_delta dx = steering_constraint y6 (c_ddelta (if ignores m then mkVCm 0 0 else mkVCm y7 y8)) d dd).
    { unfold vehicle_dyn_dynamics in Dq. destruct (vehicle_friction _ _ _) as [[a b] w]. destruct (ltb _ _); [injection Dq as <-; reflexivity|]. destruct (wheel_forces _ _ _ _ _ _) as [[F1 [F2 F3]]|]; [injection Dq as <-; reflexivity|discriminate]. }
    rewrite Dd. split; [apply steer_at_max|apply steer_at_min]; exact Pd.
  - destruct G as (-> & <-). apply (coordinate solve m u T m' "phi" 6 lo hi E HT H); [rewrite K; cbn; tauto|]. rewrite K. cbn [state_class command_class]. intros y r Ly. cbn in Ly. unpack y Ly. intro X.
    destruct (ge_body (mo_geo m)) eqn:Gq; try (exfalso; unfold ivp_rates, stateactions_from_array, dynamics in X; rewrite K, P, Gq in X; destruct (ignores m); cbn in X; discriminate X).
    destruct (ge_Iz (mo_geo m)) as [iz|] eqn:Iq; [|exfalso; unfold ivp_rates, stateactions_from_array, dynamics in X; rewrite K, P, Gq, Iq in X; destruct (ignores m); cbn in X; discriminate X].
    rewrite (rates_rocket m vx acc mv ct F (lo, hi) dd g type iz (mk8 y0 y1 y2 y3 y4 y5 y6 y7) (mkRC y8 y9 y10) K P Gq Iq : ivp_rates m [y0; y1; y2; y3; y4; y5; y6; y7; y8; y9; y10] = _) in X. apply OI in X. subst r.
    unfold rocket_dynamics. destruct (rocket_thrust _ _ _). cbn. split; [apply ang_at_max|apply ang_at_min].
  - destruct G as (-> & <-). apply (coordinate solve m u T m' "delta" 6 lo hi E HT H); [rewrite K; cbn; tauto|]. rewrite K. cbn [state_class command_class]. intros y r Ly. cbn in Ly. unpack y Ly. intro X.
    destruct (ge_body (mo_geo m)) eqn:Gq; try (exfalso; unfold ivp_rates, stateactions_from_array, dynamics in X; rewrite K, P, Gq in X; destruct (ignores m); cbn in X; discriminate X).
    destruct (ge_Iz (mo_geo m)) as [iz|] eqn:Iq; [|exfalso; unfold ivp_rates, stateactions_from_array, dynamics in X; rewrite K, P, Gq, Iq in X; destruct (ignores m); cbn in X; discriminate X].
    rewrite (rates_spaceship m vx acc mv ct F (lo, hi) dd g type iz (mk8 y0 y1 y2 y3 y4 y5 y6 y7) (mkSSC y8 y9) K P Gq Iq : ivp_rates m [y0; y1; y2; y3; y4; y5; y6; y7; y8; y9] = _) in X. apply OI in X. subst r.
    cbn. split; [apply ang_at_max|apply ang_at_min].
Qed.

Lemma governed_update solve m u T m' f lo hi : exact solve -> 0 <= T -> model_update solve m u T = Ok m' -> governed m f lo hi -> mo_collided m = false ->
  keeps (mo_state m) f lo hi -> keeps (mo_state m') f lo hi.
Proof.
  intros E HT H G Nc. unfold governed in G. destruct (mo_kind m) eqn:K; try contradiction; destruct (mo_params m) as [|vx acc d dd|vx acc w| |vx acc w|vx acc w ddp| |] eqn:P; try contradiction.
  - destruct G as (-> & <-). apply (coordinate solve m u T m' "vx" 3 lo hi E HT H); [rewrite K; cbn; tauto|]. rewrite K. cbn [state_class command_class]. intros y r Ly. cbn in Ly. unpack y Ly. intro X.
    destruct (as_vgeo (mo_geo m)) as [g|e] eqn:Gq; [|exfalso; unfold ivp_rates, stateactions_from_array, dynamics in X; rewrite K, P, Gq in X; destruct (ignores m); cbn in X; discriminate X].
    rewrite (rates_vehicle m (lo, hi) acc d dd g (mkV y0 y1 y2 y3 y4) (mkVCm y5 y6) K P Gq : ivp_rates m [y0; y1; y2; y3; y4; y5; y6] = _) in X. apply OI in X. subst r. cbn. split; intro Y; [apply speed_at_max|apply speed_at_min]; exact Y.
  - destruct G as (-> & <-). apply (coordinate solve m u T m' "vx" 3 lo hi E HT H); [rewrite K; cbn; tauto|]. rewrite K. cbn [state_class command_class]. intros y r Ly. cbn in Ly. unpack y Ly. intro X.
    destruct (to_st6 cPedestrianState (mo_state m)) as [self|e] eqn:Sq; [|exfalso; unfold ivp_rates, stateactions_from_array, dynamics in X; rewrite K, P, Sq in X; destruct (ignores m); cbn in X; discriminate X].
    rewrite (rates_pedestrian m (lo, hi) acc w self (mk6 y0 y1 y2 y3 y4 y5) (mkPC y6 y7) K P Sq : ivp_rates m [y0; y1; y2; y3; y4; y5; y6; y7] = _) in X. apply OI in X. subst r. unfold pedestrian_dynamics. rewrite Nc. cbn. rewrite Rplus_0_r. split; intro Y; [apply speed_at_max|apply speed_at_min]; exact Y.
  - destruct G as (-> & <-). apply (coordinate solve m u T m' "dpsi" 5 lo hi E HT H); [rewrite K; cbn; tauto|]. rewrite K. cbn [state_class command_class]. intros y r Ly. cbn in Ly. unpack y Ly. intro X.
    destruct (ge_body (mo_geo m)) eqn:Gq; try (exfalso; unfold ivp_rates, stateactions_from_array, dynamics in X; rewrite K, P, Gq in X; destruct (ignores m); cbn in X; discriminate X).
    destruct (ge_m (mo_geo m)) as [ms|] eqn:Mq; [|exfalso; unfold ivp_rates, stateactions_from_array, dynamics in X; rewrite K, P, Gq, Mq in X; destruct (ignores m); cbn in X; discriminate X].
    destruct (ge_Iz (mo_geo m)) as [iz|] eqn:Iq; [|exfalso; unfold ivp_rates, stateactions_from_array, dynamics in X; rewrite K, P, Gq, Mq, Iq in X; destruct (ignores m); cbn in X; discriminate X].
    rewrite (rates_spacecraft m vx acc (lo, hi) g type ms iz (mk6 y0 y1 y2 y3 y4 y5) (mkSC y6 y7) K P Gq Mq Iq : ivp_rates m [y0; y1; y2; y3; y4; y5; y6; y7] = _) in X. apply OI in X. subst r. cbn. split; [apply rot_at_max|apply rot_at_min].
  - assert (Q : exists i, In (f, i) (c_idx (state_class (mo_kind m))) /\ ((i = 3%nat \/ i = 4%nat) /\ (lo, hi) = vx \/ i = 5%nat /\ (lo, hi) = w)).
    { rewrite K. destruct G as [([-> | ->] & G)|(-> & G)]; [exists 3%nat|exists 4%nat|exists 5%nat]; cbn; tauto. }
    destruct Q as (i & I & Q). apply (coordinate solve m u T m' f i lo hi E HT H I). rewrite K. cbn [state_class command_class]. intros y r Ly. cbn in Ly. unpack y Ly. intro X.
    rewrite (rates_obstacle m vx acc w ddp (mk6 y0 y1 y2 y3 y4 y5) (mkOC y6 y7 y8) K P : ivp_rates m [y0; y1; y2; y3; y4; y5; y6; y7; y8] = _) in X. apply OI in X. subst r.
    destruct Q as [([-> | ->] & <-)|(-> & <-)]; cbn; split; intro Y; first [apply speed_at_max|apply speed_at_min|apply rot_at_max|apply rot_at_min]; exact Y.
Qed.

Lemma burns_update solve m u T m' mv r r' : exact solve -> 0 <= T -> model_update solve m u T = Ok m' -> burns m mv -> has (mo_state m) "m" r -> has (mo_state m') "m" r' -> r' <= r /\ Rmin mv r <= r'.
Proof.
  intros E HT H G Hr Hr'. unfold burns in G. destruct (update_path _ _ _ _ _ E H) as (path & rates & L1 & L2 & PR & PE).
  assert (Z : (mo_kind m = KRocket \/ mo_kind m = KSpaceship) /\ forall y rr, List.length y = List.length (path 0) -> ivp_rates m y = Ok rr -> nth 7 rr 0 <= 0 /\ (nth 7 y 0 <= mv -> nth 7 rr 0 = 0)).
  { destruct (mo_kind m) eqn:K; try contradiction; destruct (mo_params m) as [| | | | | |vx acc mv' ct F d dd|vx acc mv' ct F d dd] eqn:P; try contradiction; (split; [tauto|]); destruct G as (-> & C & F'); rewrite L2; cbn [state_class command_class]; intros y rr Ly; cbn in Ly; unpack y Ly; intro X;
    (destruct (ge_body (mo_geo m)) eqn:Gq; try (exfalso; unfold ivp_rates, stateactions_from_array, dynamics in X; rewrite K, P, Gq in X; destruct (ignores m); cbn in X; discriminate X));
    (destruct (ge_Iz (mo_geo m)) as [iz|] eqn:Iq; [|exfalso; unfold ivp_rates, stateactions_from_array, dynamics in X; rewrite K, P, Gq, Iq in X; destruct (ignores m); cbn in X; discriminate X]).
    - rewrite (rates_rocket m vx acc mv' ct F d dd g type iz (mk8 y0 y1 y2 y3 y4 y5 y6 y7) (mkRC y8 y9 y10) K P Gq Iq : ivp_rates m [y0; y1; y2; y3; y4; y5; y6; y7; y8; y9; y10] = _) in X. apply OI in X. subst rr.
      apply (rocket_mass_rate (mkRP mv' ct (fst F) (snd F) (fst d) (snd d) (fst dd) (snd dd)) iz (rg_l_m g) (mk8 y0 y1 y2 y3 y4 y5 y6 y7) (if ignores m then mkRC 0 0 0 else mkRC y8 y9 y10) F' C).
    - rewrite (rates_spaceship m vx acc mv' ct F d dd g type iz (mk8 y0 y1 y2 y3 y4 y5 y6 y7) (mkSSC y8 y9) K P Gq Iq : ivp_rates m [y0; y1; y2; y3; y4; y5; y6; y7; y8; y9] = _) in X. apply OI in X. subst rr.
      apply (spaceship_mass_rate (mkRP mv' ct (fst F) (snd F) (fst d) (snd d) (fst dd) (snd dd)) iz (hg_l_r g) (mk8 y0 y1 y2 y3 y4 y5 y6 y7) (if ignores m then mkSSC 0 0 else mkSSC y8 y9) F' C). }
  destruct Z as [K Z]. destruct (PE "m" 7%nat) as (Ev & H0 & H1); [destruct K as [-> | ->]; cbn; tauto|].
  assert (r = nth 7 (path 0) 0) as -> by (unfold has in *; congruence). assert (r' = nth 7 (path T) 0) as -> by (unfold has in *; congruence).
  destruct (mass_mono _ _ T mv Ev) as [M1 M2].
  - intros t Ht. apply (Z (path t) (rates t)); [apply L1; lra|apply PR; exact Ht].
  - intros t Ht. apply (Z (path t) (rates t)); [apply L1; lra|apply PR; exact Ht].
  - split; [apply M1; lra|apply M2; lra].
Qed.

Lemma held_make m m' f lo hi : same_make m m' -> held m f lo hi -> held m' f lo hi.
Proof. intros (K & _ & _ & P & _). unfold held. rewrite K, P. auto. Qed.

Lemma governed_make m m' f lo hi : same_make m m' -> governed m f lo hi -> governed m' f lo hi.
Proof. intros (K & _ & _ & P & _). unfold governed. rewrite K, P. auto. Qed.

Lemma burns_make m m' mv : same_make m m' -> burns m mv -> burns m' mv.
Proof. intros (K & _ & _ & P & _). unfold burns. rewrite K, P. auto. Qed.

Lemma held_steady m f lo hi : held m f lo hi -> ~ In f ["vx"; "vy"; "dpsi"; "dtheta"].
Proof. unfold held. intros H I. destruct (mo_kind m); try contradiction; destruct (mo_params m); try contradiction; destruct H as (-> & _); cbn in I; intuition discriminate. Qed.

Lemma seconds_pos d : (0 < d)%Qc -> 0 <= seconds d.
Proof. intro H. unfold seconds. replace 0 with (Q2R 0) by (unfold Q2R; cbn; lra). apply Qle_Rle. apply Qclt_le_weak in H. exact H. Qed.

(** Steering angles and nozzles stay within their limits at all times, whatever happens. *)
Theorem C124_held : forall L C env (c : ctx (sim_world L C env)) m fuel sf p (m0 : model) f lo hi, valid_ctx c -> unused m -> (0 < dt (g_param (c_cfg c)))%Qc -> run fuel m c = Some (Ok sf) -> exact (li_solve L) ->
  plays c p m0 -> held m0 f lo hi -> (forall vx acc d dd, mo_params m0 = PVehicle vx acc d dd -> 0 < dd) -> keeps (mo_state m0) f lo hi ->
  (exists mf : model, model_of sf p = Some mf /\ keeps (mo_state mf) f lo hi) /\ forall t x, logged sf p t x -> keeps x f lo hi.
Proof.
  intros L C env c m fuel sf p m0 f lo hi V U D R E Hp Hh Hd Hk. pose proof (seconds_pos _ D) as HT.
  destruct (run_always L C env (fun q a => q = p -> same_make m0 a /\ keeps (mo_state a) f lo hi) c m fuel sf V U D R) as [F G].
  - intros q a u b I H Q. destruct (I Q) as [I1 I2]. pose proof (C122_frame_pf _ _ _ _ _ H) as (H1 & _). split; [eapply same_make_trans; eassumption|].
    eapply held_update; [exact E|exact HT|exact H|eapply held_make; eassumption| |exact I2]. destruct I1 as (_ & _ & _ & I1 & _). rewrite I1. exact Hd.
  - intros q a b I H Q. destruct (I Q) as [I1 (r & Hr & W)]. destruct H as (H1 & (_ & _ & _ & _ & _ & H2) & _). split; [eapply same_make_trans; eassumption|].
    exists r. split; [|exact W]. unfold has in *. rewrite H2; [exact Hr|]. exact (held_steady _ _ _ _ Hh).
  - intros q a Q ->. unfold plays in *. assert (a = m0) as -> by congruence. split; [repeat split|exact Hk].
  - split; [destruct (F p m0 Hp) as (mf & Mf & I); exists mf; split; [exact Mf|apply I; reflexivity]|].
    intros t x Lx. destruct (G p t x (dget_Some_In _ _ _ Hp) Lx) as (mi & I & ->). apply I. reflexivity.
Qed.

Lemma times_order W (c : ctx W) s0 i si j sj : started c s0 -> (0 < dt (g_param (c_cfg c)))%Qc -> after s0 i si -> after s0 j sj -> (time si <= time sj)%Qc -> (i <= j)%nat.
Proof.
  intros S D Ai Aj Ht. destruct (le_lt_dec i j) as [Y|Y]; [exact Y|exfalso]. rewrite (fa_time _ _ _ _ (started_facts _ _ _ _ S D Ai)), (fa_time _ _ _ _ (started_facts _ _ _ _ S D Aj)) in Ht. set (d := dt (g_param (c_cfg c))) in *.
  assert (Z : (qn i * d <= qn j * d)%Qc).
  { replace (qn i * d)%Qc with (c_time c + qn i * d + - c_time c)%Qc by ring. replace (qn j * d)%Qc with (c_time c + qn j * d + - c_time c)%Qc by ring. apply Qcplus_le_compat; [exact Ht|apply Qcle_refl]. }
  apply (Qcle_not_lt _ _ Z). apply Qcmult_lt_compat_r; [exact D|]. apply qn_lt. exact Y.
Qed.

(** Rockets and spaceships get lighter, but not lighter than they are without fuel. *)
Theorem C124_mass : forall L C env (c : ctx (sim_world L C env)) m fuel sf p (m0 : model) mv r0, valid_ctx c -> unused m -> (0 < dt (g_param (c_cfg c)))%Qc -> run fuel m c = Some (Ok sf) -> exact (li_solve L) ->
  plays c p m0 -> burns m0 mv -> has (mo_state m0) "m" r0 ->
  (forall t x, logged sf p t x -> exists r, has x "m" r /\ Rmin mv r0 <= r <= r0) /\
  (forall t x t' x' r r', logged sf p t x -> logged sf p t' x' -> (t <= t')%Qc -> has x "m" r -> has x' "m" r' -> r' <= r).
Proof.
  intros L C env c m fuel sf p m0 mv r0 V U D R E Hp Hb H0. pose proof (seconds_pos _ D) as HT.
  set (T := fun (q : player) (a b : w_M (sim_world L C env)) => forall r, burns a mv -> has (mo_state a) "m" r -> same_make a b /\ exists r', has (mo_state b) "m" r' /\ Rmin mv r <= r' <= r).
  assert (Trefl : forall q a, T q a a) by (intros q a r _ X; split; [repeat split|]; exists r; split; [exact X|]; split; [apply Rmin_r|lra]).
  assert (Ttrans : forall q a b d, T q a b -> T q b d -> T q a d).
  { intros q a b d X Y r B1 B2. destruct (X r B1 B2) as (X1 & r1 & X2 & X3). destruct (Y r1 (burns_make _ _ _ X1 B1) X2) as (Y1 & r2 & Y2 & Y3).
    split; [eapply same_make_trans; eassumption|]. exists r2. split; [exact Y2|]. split; [|lra]. eapply Rle_trans; [|apply Y3]. unfold Rmin in *. repeat destruct (Rle_dec _ _); lra. }
  assert (Thit : forall q a b, hit a b -> T q a b).
  { intros q a b (H1 & (_ & _ & _ & _ & _ & H2) & _) r _ B2. split; [exact H1|]. exists r. split; [unfold has in *; rewrite H2; [exact B2|cbn; intuition discriminate]|]. split; [apply Rmin_r|lra]. }
  assert (Z : forall x y, many (change (dt (g_param (c_cfg c))) (g_scen (c_cfg c))) x y -> forall q a, dget (fst x) q = Some a -> exists b, dget (fst y) q = Some b /\ T q a b).
  { apply (lineage T Trefl Ttrans).
    - intros q a u b H r B1 B2. change (model_update (li_solve L) a u (seconds (dt (g_param (c_cfg c)))) = Ok b) in H. pose proof (C122_frame_pf _ _ _ _ _ H) as (H1 & _). split; [exact H1|].
      destruct (update_path _ _ _ _ _ E H) as (path & rates & _ & _ & _ & PE). destruct (PE "m" 7%nat) as (_ & _ & H2).
      { unfold burns in B1. destruct (mo_kind a); try contradiction; destruct (mo_params a); try contradiction; cbn; tauto. }
      eexists. split; [exact H2|]. destruct (burns_update _ _ _ _ _ _ _ _ E HT H B1 B2 H2). split; assumption.
    - intros q ob t a b out H. destruct (env_cases _ _ _ _ _ _ _ _ H) as [[-> _]|[X _]]; [apply Trefl|apply Thit; exact X].
    - intros q q' t a b a' b' out N H. destruct (resolve_cases _ _ _ _ _ _ _ _ _ _ _ H) as [(-> & -> & _)|(X & Y & _)]; [split; apply Trefl|split; apply Thit; assumption]. }
  destruct (run_log _ _ _ _ V U D R) as (s0 & k & s & S & A & M0 & E0 & Mf & _ & Ef & Lg). pose proof (dget_Some_In _ _ _ Hp) as Kp.
  assert (Q : forall i si (mi : model), after s0 i si -> model_of si p = Some mi -> T p m0 mi).
  { intros i si mi Ai Mi. destruct (Z _ _ (run_micro c s0 0 s0 i si S D (after_0 s0) Ai) p m0) as (b & B1 & B2); [cbn; rewrite M0; exact Hp|]. change (model_of si p = Some b) in B1. pose proof (eq_trans (eq_sym B1) Mi : @eq (option model) (Some b) (Some mi)) as X. injection X as ->. exact B2. }
  split.
  - intros t x Lx. destruct (Lg p t x Kp Lx) as (i & si & mi & _ & Ai & Mi & -> & _). destruct (Q i si mi Ai Mi r0 Hb H0) as (_ & r & X). exists r. exact X.
  - intros t x t' x' r r' Lx Lx' Ht Hr Hr'. destruct (Lg p t x Kp Lx) as (i & si & mi & _ & Ai & Mi & -> & ->). destruct (Lg p t' x' Kp Lx') as (j & sj & mj & _ & Aj & Mj & -> & ->).
    pose proof (after_split _ _ _ Aj _ _ (times_order _ c s0 i si j sj S D Ai Aj Ht) Ai) as Aij.
    destruct (Q i si mi Ai Mi r0 Hb H0) as (B & _). destruct (Z _ _ (run_micro c s0 i si _ sj S D Ai Aij) p mi Mi) as (b & B1 & B2). change (model_of sj p = Some b) in B1. pose proof (eq_trans (eq_sym B1) Mj : @eq (option model) (Some b) (Some mj)) as X. injection X as ->.
    destruct (B2 r (burns_make _ _ _ B Hb) Hr) as (_ & r1 & X1 & X2). change (has (mo_state mj) "m" r') in Hr'. assert (r1 = r') as -> by (unfold has in *; congruence). lra.
Qed.

Lemma calls_grow W (c : ctx W) s0 i si n sj : started c s0 -> (0 < dt (g_param (c_cfg c)))%Qc -> after s0 i si -> after si n sj -> (forall r, In r (expected_reports (ev si)) -> In r (expected_reports (ev sj))) /\ (forall e, In e (ev si) -> In e (ev sj)).
Proof.
  intros S D Ai Aj. pose proof (run_micro c s0 i si n sj S D Ai Aj) as M.
  refine (many_inv (change _ _) (fun y => (forall r, In r (expected_reports (ev si)) -> In r (expected_reports (snd y))) /\ (forall e, In e (ev si) -> In e (snd y))) _ _ _ M _); [|split; auto].
  intros x y Q [I1 I2]. assert (X : exists e, snd y = e :: snd x) by (destruct Q as [Q|[t Q]]; destruct Q; cbn; eauto). destruct X as [e ->].
  split; [intros r Hr; rewrite expected_cons; apply in_or_app; left; auto|intros e' He; right; auto].
Qed.

Lemma env_times W (c : ctx W) s0 k s : started c s0 -> (0 < dt (g_param (c_cfg c)))%Qc -> ev s0 = [] -> after s0 k s -> forall p i t b out, In (EEnv p i t b out) (ev s) -> (t <= time s)%Qc.
Proof.
  intros S D E0 A. induction A as [|k s s' A IH Ht Hs]; intros p i t b out; [rewrite E0; intros []|].
  pose proof (started_facts c s0 _ s S D A) as [I Cf P _ Ti _ _]. pose proof (fa_time _ _ _ _ (started_facts c s0 _ s' S D (after_S _ _ _ _ A Ht Hs))) as Ti'.
  destruct (step_micro s s' (i_nd _ I) (i_ndm _ I) Hs) as (mid & M1 & M2 & _).
  assert (Z1 : forall p i t b out, In (EEnv p i t b out) (snd mid) -> (t <= time s')%Qc).
  { refine (many_inv (quiet _) (fun y => forall p i t b out, In (EEnv p i t b out) (snd y) -> (t <= time s')%Qc) _ _ _ M1 _).
    - intros x y Q J p' i' t' b' o' I'. destruct Q; cbn [snd] in *; (destruct I' as [I'|I']; [discriminate I'|eapply J; exact I']).
    - cbn [snd snap_of]. intros p' i' t' b' o' I'. apply IH in I'. eapply Qcle_trans; [exact I'|]. rewrite Ti, Ti', qn_S. apply Qclt_le_weak in D. replace (c_time c + qn k * dt (g_param (c_cfg c)))%Qc with (c_time c + qn k * dt (g_param (c_cfg c)) + 0)%Qc by ring.
      replace (c_time c + (qn k + 1) * dt (g_param (c_cfg c)))%Qc with (c_time c + qn k * dt (g_param (c_cfg c)) + dt (g_param (c_cfg c)))%Qc by ring. apply Qcplus_le_compat; [apply Qcle_refl|exact D]. }
  change (In (EEnv p i t b out) (snd (snap_of s')) -> (t <= time s')%Qc). revert p i t b out.
  refine (many_inv (bump _ _) (fun y => forall p i t b out, In (EEnv p i t b out) (snd y) -> (t <= time s')%Qc) _ _ _ M2 Z1).
  intros x y Q J p' i' t' b' o' I'. destruct Q; cbn [snd] in *; (destruct I' as [I'|I']; [|eapply J; exact I']); [injection I' as _ _ <- _ _; apply Qcle_refl|discriminate I'].
Qed.

Lemma kind_dec k : {k = KDynObstacle} + {k <> KDynObstacle}.
Proof. destruct k; try (left; reflexivity); right; discriminate. Qed.

(** Speeds stay within their limits as long as the player is not in a collision. *)
Theorem C125_governed : forall L C env (c : ctx (sim_world L C env)) m fuel sf p (m0 : model) f lo hi, valid_ctx c -> unused m -> (0 < dt (g_param (c_cfg c)))%Qc -> run fuel m c = Some (Ok sf) -> exact (li_solve L) ->
  c_reports c = [] -> c_first c = None -> plays c p m0 -> mo_collided m0 = false -> governed m0 f lo hi -> keeps (mo_state m0) f lo hi ->
  forall t x, logged sf p t x -> ~ named_by sf p t -> (mo_kind m0 = KDynObstacle -> forall i t', In (p, i, t') (envs_of (ev sf)) -> (t < t')%Qc) -> keeps x f lo hi.
Proof.
  intros L C env c m fuel sf p m0 f lo hi V U D R E R0 F0 Hp Hc Hg Hk t x Lx Nn Ne. pose proof (seconds_pos _ D) as HT.
  destruct (run_log _ _ _ _ V U D R) as (s0 & k & s & S & A & M0 & E0 & Mf & Rf & Ef & Lg).
  destruct (Lg p t x (dget_Some_In _ _ _ Hp) Lx) as (i & si & mi & Li & Ai & Mi & -> & ->).
  pose proof (run_micro c s0 0 s0 i si S D (after_0 s0) Ai) as M. pose proof (after_split _ _ _ A _ _ Li Ai) as Ais.
  destruct (calls_grow _ c s0 i si _ s S D Ai Ais) as [G1 G2].
  assert (X : (p = p -> same_make m0 mi /\ mo_collided mi = false /\ keeps (mo_state mi) f lo hi) \/ touched (ev si) p).
  { apply (until L C env (fun q a => q = p -> same_make m0 a /\ mo_collided a = false /\ keeps (mo_state a) f lo hi) (dt (g_param (c_cfg c))) (g_scen (c_cfg c))) with (x := snap_of s0) (y := snap_of si); [|exact M| |exact Mi].
    - intros q a u b I H Q. destruct (I Q) as (I1 & I2 & I3). pose proof (C122_frame_pf _ _ _ _ _ H) as (H1 & H2 & _). split; [eapply same_make_trans; eassumption|]. split; [congruence|].
      eapply governed_update; [exact E|exact HT|exact H|eapply governed_make; eassumption|exact I2|exact I3].
    - intros q a Q. left. intros ->. cbn [snap_of fst] in Q. rewrite M0 in Q. unfold plays in Hp. assert (a = m0) as -> by congruence. split; [repeat split|]. split; [exact Hc|exact Hk]. }
  destruct X as [X|[(r & X1 & X2)|(j & t' & out & X)]]; [apply X; reflexivity| |]; exfalso.
  - apply Nn. exists r. rewrite Rf, (C27_reports_are_the_calls_pf _ c s0 k s S D A), R0. split; [apply G1; exact X1|]. split; [exact X2|].
    destruct (C27_reports_in_time_order_pf _ c s0 i si S D (proj2 (C123_laws_pf L C env)) R0 F0 Ai) as (_ & T & _). apply T. rewrite (C27_reports_are_the_calls_pf _ c s0 i si S D Ai), R0. exact X1.
  - destruct (kind_dec (mo_kind m0)) as [Kd|Kd].
    + assert (Y : (time si < t')%Qc).
      { apply (Ne Kd j). rewrite Ef. unfold envs_of. apply in_flat_map. exists (EEnv p j t' true out). split; [apply -> in_rev; apply G2; exact X|left; reflexivity]. }
      apply (Qclt_not_le _ _ Y). exact (env_times _ c s0 i si S D E0 Ai _ _ _ _ _ X).
    + exact (no_dyn_event L C env c s0 i si p m0 S D Ai M0 E0 Hp Kd _ _ _ X).
Qed.

(** An integrator that solves what can be solved by a motion at constant speed. *)
Definition straight (f : list R -> result (list R)) (T : R) (y0 : list R) : result (list R) :=
  match f y0 with
  | Ok r => if ClassicalEpsilon.excluded_middle_informative (List.length r = List.length y0 /\ forall t, 0 <= t < T -> f (array_add y0 (array_scale t r)) = Ok r) then Ok (array_add y0 (array_scale T r)) else Err PyRuntimeError
  | Err e => Err e
  end.

Lemma nth_line i r t : forall y, List.length r = List.length y -> nth i (array_add y (array_scale t r)) 0 = nth i y 0 + nth i r 0 * t.
Proof.
  revert i. induction r as [|a r IH]; intros i [|b y] Lr; try discriminate Lr; [destruct i; cbn; ring|]. injection Lr as Lr. destruct i; cbn; [ring|]. apply IH. exact Lr.
Qed.

Lemma length_line r t : forall y, List.length r = List.length y -> List.length (array_add y (array_scale t r)) = List.length y.
Proof. intros y H. unfold array_add, array_scale. rewrite map_length, combine_length, map_length, H. apply Nat.min_id. Qed.

Lemma straight_exact : exact straight.
Proof.
  intros f T y0 y1 H. unfold straight in H. destruct (f y0) as [r|] eqn:E; [|discriminate]. destruct (ClassicalEpsilon.excluded_middle_informative _) as [[Lr F]|]; [|discriminate]. apply OI in H. subst y1.
  exists (fun t => array_add y0 (array_scale t r)), (fun _ => r). split.
  { apply (nth_ext _ _ 0 0); [apply length_line; exact Lr|]. intros n _. rewrite nth_line by exact Lr. ring. }
  split; [reflexivity|]. split; [intros t _; apply length_line; exact Lr|]. split; [exact F|]. intros i _.
  eapply evolves_ext; [apply (evolves_affine (nth i y0 0) (nth i r 0) T)| |reflexivity]. intro t. rewrite nth_line by exact Lr. ring.
Qed.

Lemma straight_goes f T y0 r : f y0 = Ok r -> List.length r = List.length y0 -> (forall t, 0 <= t < T -> f (array_add y0 (array_scale t r)) = Ok r) -> straight f T y0 = Ok (array_add y0 (array_scale T r)).
Proof. intros H L F. unfold straight. rewrite H. destruct (ClassicalEpsilon.excluded_middle_informative _) as [_|N]; [reflexivity|]. exfalso. apply N. split; assumption. Qed.

Lemma alone (W : world) (sc : w_scen W) (A : w_A W) (u : w_U W) (a a1 a2 : w_M W) :
  (forall p n g m, agent_init W A p n sc g m = Ok A) -> (forall o, agent_cmds W A o = Ok (A, u)) -> agent_extra W A = Ok (A, None) -> (forall o p, sense W (id_filter W) sc o p = Ok (id_filter W, o)) -> (forall f, env_query W sc f = []) ->
  model_step W a u (qz 1) = Ok a1 -> model_step W a1 u (qz 1) = Ok a2 ->
  let c := mkCtx (mkConfig sc (mkParam (qz 1) (qz 1) (qz 0) (qz 0)) [] true 0%nat) [(1%nat, a)] [(1%nat, A)] [] [] (qz (-1)) false [] None in
  valid_ctx c /\ exists sf, run 3 new_simulator c = Some (Ok sf) /\ model_of sf 1 = Some a2 /\ c_reports (cx sf) = [] /\ envs_of (ev sf) = [] /\ logged sf 1 (qz (-1)) (get_state W a) /\ logged sf 1 (qz (-1) + qz 1)%Qc (get_state W a1).
Proof.
  intros IA CA XA SE Q Sa Sa1 c. split.
  { split; [reflexivity|]. repeat split; cbn; repeat constructor; cbn; intuition congruence. }
  revert Sa Sa1. match goal with |- ?P -> ?P' -> _ => let Q := eval lazy - [w_X w_U w_M w_A w_G w_S w_F w_O w_E w_I w_D w_scen get_state footprint intersects is_dyn model_step agent_init agent_cmds agent_extra goal_done sense id_filter cpu_time env_query obstacles resolve resolve_env] in P in change P with Q; let Q := eval lazy - [w_X w_U w_M w_A w_G w_S w_F w_O w_E w_I w_D w_scen get_state footprint intersects is_dyn model_step agent_init agent_cmds agent_extra goal_done sense id_filter cpu_time env_query obstacles resolve resolve_env] in P' in change P' with Q end. intros Sa Sa1.
  eassert (E0 : init_run c new_simulator = Ok _) by (stage; rewrite !IA; stage; reflexivity).
  match type of E0 with _ = Ok ?s => eassert (E1 : pre_update s = Ok _) by (stage; reflexivity) end.
  match type of E1 with _ = Ok ?s => eassert (E2 : update_player (qz (-1)) s 1%nat = Ok _) by (stage; rewrite SE; stage; rewrite CA; stage; rewrite XA; stage; rewrite Sa; stage; reflexivity) end.
  match type of E2 with _ = Ok ?s => eassert (E4 : (if need_commands s then Ok (upd_sm s (set_last (sm s) (Some (qz (-1))))) else Ok s) = Ok _) by (stage; reflexivity) end.
  match type of E4 with _ = Ok ?s => eassert (E5 : post_update s = Ok _) by (stage; rewrite !Q; stage; reflexivity) end.
  match type of E5 with _ = Ok ?s => eassert (E6 : pre_update s = Ok _) by (stage; reflexivity) end.
  match type of E6 with _ = Ok ?s => eassert (E7 : update_player (qz (-1) + qz 1)%Qc s 1%nat = Ok _) by (stage; rewrite SE; stage; rewrite CA; stage; rewrite XA; stage; rewrite Sa1; stage; reflexivity) end.
  match type of E7 with _ = Ok ?s => eassert (E9 : (if need_commands s then Ok (upd_sm s (set_last (sm s) (Some (qz (-1) + qz 1)%Qc))) else Ok s) = Ok _) by (stage; reflexivity) end.
  match type of E9 with _ = Ok ?s => eassert (E10 : post_update s = Ok _) by (stage; reflexivity) end.
  match type of E10 with _ = Ok ?s => eassert (E11 : write_logs s = Ok _) by (stage; reflexivity) end.
  assert (K1 : forall s x1 x2 x4 x5, pre_update s = Ok x1 -> akeys (c_players (cx x1)) = [1]%nat -> update_player (time x1) x1 1%nat = Ok x2 ->
    (if need_commands x2 then Ok (upd_sm x2 (set_last (sm x2) (Some (time x1)))) else Ok x2) = Ok x4 -> post_update x4 = Ok x5 -> step (W := W) s = Ok x5).
  { intros s x1 x2 x4 x5 H1 H2 H3 H5 H6. unfold step, update. rewrite H1, H2. cbn [rfold]. rewrite H3. rewrite H5. exact H6. }
  eexists. split; [unfold run; rewrite E0; cbn [loop]; cbn [c_term cx]; rewrite (K1 _ _ _ _ _ E1 eq_refl E2 E4 E5); cbn [c_term cx]; rewrite (K1 _ _ _ _ _ E6 eq_refl E7 E9 E10); cbn [c_term cx]; rewrite E11; reflexivity|].
  clear. split; [reflexivity|]. split; [reflexivity|]. split; [reflexivity|]. split; (eexists; split; [reflexivity|]); cbn; [left; reflexivity|right; left; reflexivity].
Qed.

(** A rocket that burns fuel symmetrically, and a car that rolls straight ahead. *)
Definition burning : model := mkModel KRocket (st8_obj "RocketState" "phi" (mk8 0 0 0 0 1 0 0 5)) "RocketState" geo_default_rocket (PRocket (-1, 1) (-1, 1) (rp_mv rp_default) (rp_CT rp_default) (rp_Flo rp_default, rp_Fhi rp_default) (rp_lo rp_default, rp_hi rp_default) (rp_dlo rp_default, rp_dhi rp_default)) [] None false.

Definition burn : obj := mkO "RocketCommands" [("F_left", Num 1); ("F_right", Num 1); ("dphi", Num 0)].

Definition space : world := sim_world (plain_library crash_site straight) stubborn 0.

Definition solo (m : model) (u : obj) : ctx space := mkCtx (W := space) (mkConfig (W := space) tt (mkParam (qz 1) (qz 1) (qz 0) (qz 0)) [] true 0%nat) [(1%nat, m)] [(1%nat, u)] [] [] (qz (-1)) false [] None.

Lemma burning_moves y ms : 3 <= ms -> model_update straight (set_state burning (st8_obj "RocketState" "phi" (mk8 0 y 0 0 1 0 0 ms))) burn 1 = Ok (set_state burning (st8_obj "RocketState" "phi" (mk8 0 (y + 1) 0 0 1 0 0 (ms - 1 / 50)))).
Proof.
  intro Hm. set (m := set_state burning _).
  assert (F : forall y ms, 2 < ms -> ivp_rates m [0; y; 0; 0; 1; 0; 0; ms; 1; 1; 0] = Ok [0; 1; 0; 0; 0; 0; 0; - (1 / 50); 0; 0; 0]).
  { intros y' ms' H. etransitivity; [apply (rates_rocket m (-1, 1) (-1, 1) (rp_mv rp_default) (rp_CT rp_default) (rp_Flo rp_default, rp_Fhi rp_default) (rp_lo rp_default, rp_hi rp_default) (rp_dlo rp_default, rp_dhi rp_default) rocket_default0 "rocket" 1 (mk8 0 y' 0 0 1 0 0 ms') (mkRC 1 1 0)); reflexivity|].
    cbn [ignores m mo_kind mo_collided set_state burning]. unfold rocket_dynamics, rocket_thrust. cbn [r_m rp_mv rp_default]. replace (leb ms' 2) with false by (symmetry; unfold leb; destruct (Rle_dec ms' 2); [lra|reflexivity]).
    cbn [rp_default rc_l rc_r rc_dphi rp_Flo rp_Fhi rp_lo rp_hi rp_dlo rp_dhi rp_CT fst snd r_ang r_psi r_vx r_vy r_dpsi].
    assert (A1 : apply_force_limits 1 0 2 = 1) by (unfold apply_force_limits; cmp; unfold Rmax, Rmin; repeat destruct (Rle_dec _ _); lra). rewrite A1.
    assert (A2 : apply_full_ang_vel_limits 0 0 (- (60 * PI / 180)) (60 * PI / 180) (- (20 * PI / 180)) (20 * PI / 180) = 0) by (pose proof PI_RGT_0; unfold apply_full_ang_vel_limits, apply_ang_constraint, apply_ang_vel_limits; cmp). rewrite A2.
    rewrite Rplus_0_r, Rminus_0_r, sin_0, cos_0. cbn. f_equal. repeat (apply f_equal2; [field; lra|]); reflexivity. }
  unfold model_update. change (as_ndarray (state_class (mo_kind m)) (mo_state m)) with (Ok [0; y; 0; 0; 1; 0; 0; ms]). change (as_ndarray (command_class (mo_kind m)) burn) with (Ok [1; 1; 0]). cbn [bind app].
  rewrite (straight_goes _ 1 _ _ (F y ms ltac:(lra)) eq_refl).
  - replace (array_add _ _) with [0; y + 1; 0; 0; 1; 0; 0; ms - 1 / 50; 1; 1; 0] by (cbn; repeat (apply f_equal2; [lra|]); reflexivity). reflexivity.
  - intros t Ht. cbn. replace (0 + t * 0) with 0 by ring. replace (1 + t * 0) with 1 by ring. apply F. lra.
Qed.

Lemma one_second : seconds (qz 1) = 1.
Proof. unfold seconds, Q2R. cbn. lra. Qed.

Definition rolling : model := mkModel KVehicle (vst_obj (mkV 0 0 0 10 0)) "VehicleState" geo_default_car (PVehicle (mp_vlo (vp_m vp_rcar), mp_vhi (vp_m vp_rcar)) (mp_alo (vp_m vp_rcar), mp_ahi (vp_m vp_rcar)) (vp_dmax vp_rcar) (vp_ddmax vp_rcar)) [] None false.

Definition coast : obj := mkO "VehicleCommands" [("acc", Num 0); ("ddelta", Num 0); ("lights", Lights "off")].

Lemma rolling_moves x : model_update straight (set_state rolling (vst_obj (mkV x 0 0 10 0))) coast 1 = Ok (set_state rolling (vst_obj (mkV (x + 10) 0 0 10 0))).
Proof.
  set (m := set_state rolling _).
  assert (F : forall x, ivp_rates m [x; 0; 0; 10; 0; 0; 0] = Ok [10; 0; 0; 0; 0; 0; 0]).
  { intros x'. etransitivity; [apply (rates_vehicle m (mp_vlo (vp_m vp_rcar), mp_vhi (vp_m vp_rcar)) (mp_alo (vp_m vp_rcar), mp_ahi (vp_m vp_rcar)) (vp_dmax vp_rcar) (vp_ddmax vp_rcar) vg_car (mkV x' 0 0 10 0) (mkVCm 0 0)); reflexivity|].
    change (ignores m) with false. unfold vehicle_dynamics. cbn [v_vx v_delta v_psi c_acc c_ddelta vp_dmax vp_ddmax vp_m as_mparams fst snd].
    assert (A : apply_full_acceleration_limits 10 0 (mkMP (mp_vlo (vp_m vp_rcar)) (mp_vhi (vp_m vp_rcar)) (mp_alo (vp_m vp_rcar)) (mp_ahi (vp_m vp_rcar))) = 0) by (unfold apply_full_acceleration_limits, apply_speed_constraint, apply_acceleration_limits, vp_rcar; cbn [vp_m mp_vlo mp_vhi mp_alo mp_ahi]; cmp).
    assert (B : steering_constraint 0 0 (vp_dmax vp_rcar) (vp_ddmax vp_rcar) = 0) by (unfold steering_constraint, vp_rcar; cbn [vp_dmax vp_ddmax]; cmp).
    cbn [vp_rcar vp_m vp_dmax vp_ddmax mp_vlo mp_vhi mp_alo mp_ahi] in A, B |- *. unfold as_mparams. cbn [fst snd]. rewrite A, B, tan_0, cos_0, sin_0. unfold arr5, vg_wheelbase. cbn. f_equal. repeat (apply f_equal2; [field|]); reflexivity. }
  unfold model_update. change (as_ndarray (state_class (mo_kind m)) (mo_state m)) with (Ok [x; 0; 0; 10; 0]). change (as_ndarray (command_class (mo_kind m)) coast) with (Ok [0; 0]). cbn [bind app].
  rewrite (straight_goes _ 1 _ _ (F x) eq_refl).
  - replace (array_add _ _) with [x + 10; 0; 0; 10; 0; 0; 0] by (cbn; repeat (apply f_equal2; [lra|]); reflexivity). reflexivity.
  - intros t Ht. cbn. replace (0 + t * 0) with 0 by ring. replace (10 + t * 0) with 10 by ring. exact (F (x + t * 10)).
Qed.

(** The rocket meets the hypotheses of the theorems on the nozzle and on the mass. *)
Example C124_ex : exists sf, valid_ctx (solo burning burn) /\ (0 < dt (g_param (c_cfg (solo burning burn))))%Qc /\ run 3 new_simulator (solo burning burn) = Some (Ok sf) /\ exact (li_solve (plain_library crash_site straight)) /\
  plays (solo burning burn) 1 burning /\ held burning "phi" (- (60 * PI / 180)) (60 * PI / 180) /\ keeps (mo_state burning) "phi" (- (60 * PI / 180)) (60 * PI / 180) /\ burns burning 2 /\ has (mo_state burning) "m" 5 /\
  exists x, logged sf 1 (qz (-1) + qz 1)%Qc x /\ has x "m" (5 - 1 / 50).
Proof.
  destruct (alone space tt burn burn burning _ _ (fun _ _ _ _ => eq_refl) (fun _ => eq_refl) eq_refl (fun _ _ => eq_refl) (fun _ => eq_refl) (eq_trans (f_equal (model_update straight burning burn) one_second) (burning_moves 0 5 ltac:(lra))) (eq_trans (f_equal (model_update straight _ burn) one_second) (burning_moves (0 + 1) (5 - 1 / 50) ltac:(lra)))) as (V & sf & R & _ & _ & _ & _ & L2).
  exists sf. split; [exact V|]. split; [reflexivity|]. split; [exact R|]. split; [exact straight_exact|]. split; [reflexivity|]. split; [split; reflexivity|].
  split; [exists 0; split; [reflexivity|pose proof PI_RGT_0; lra]|]. split; [split; [reflexivity|cbn; lra]|]. split; [reflexivity|]. eexists. split; [exact L2|reflexivity].
Qed.

(** The car those of the theorems on steering and on speeds. *)
Example C125_ex : exists sf, valid_ctx (solo rolling coast) /\ (0 < dt (g_param (c_cfg (solo rolling coast))))%Qc /\ run 3 new_simulator (solo rolling coast) = Some (Ok sf) /\ exact (li_solve (plain_library crash_site straight)) /\
  plays (solo rolling coast) 1 rolling /\ mo_collided rolling = false /\ c_reports (solo rolling coast) = [] /\ c_first (solo rolling coast) = None /\
  held rolling "delta" (- (1)) 1 /\ keeps (mo_state rolling) "delta" (- (1)) 1 /\ governed rolling "vx" (mp_vlo (vp_m vp_rcar)) (mp_vhi (vp_m vp_rcar)) /\ keeps (mo_state rolling) "vx" (mp_vlo (vp_m vp_rcar)) (mp_vhi (vp_m vp_rcar)) /\
  (forall t, ~ named_by sf 1 t) /\ exists x, logged sf 1 (qz (-1) + qz 1)%Qc x /\ has x "x" (0 + 10).
Proof.
  destruct (alone space tt coast coast rolling _ _ (fun _ _ _ _ => eq_refl) (fun _ => eq_refl) eq_refl (fun _ _ => eq_refl) (fun _ => eq_refl) (eq_trans (f_equal (model_update straight rolling coast) one_second) (rolling_moves 0)) (eq_trans (f_equal (model_update straight _ coast) one_second) (rolling_moves (0 + 10)))) as (V & sf & R & _ & Rp & _ & _ & L2).
  exists sf. split; [exact V|]. split; [reflexivity|]. split; [exact R|]. split; [exact straight_exact|]. split; [reflexivity|]. split; [reflexivity|]. split; [reflexivity|]. split; [reflexivity|]. split; [repeat split|].
  split; [exists 0; split; [reflexivity|lra]|]. split; [split; reflexivity|]. split; [exists 10; split; [reflexivity|cbn; lra]|]. split; [|eexists; split; [exact L2|reflexivity]].
  intros t (r & Ir & _). rewrite Rp in Ir. destruct Ir.
Qed.

(** ** C126  a collision among free bodies *)

Definition push_of (m : model) : vec := momentum (mass_of m) (fst (velocity_of m)).

Definition spin_of (o : vec) (m : model) : R := ang_momentum (mass_of m) (inertia_of m) (place_of m) (fst (velocity_of m)) (snd (velocity_of m)) o.

Definition energy_of (m : model) : R := energy (mass_of m) (inertia_of m) (fst (velocity_of m)) (snd (velocity_of m)).

Lemma free_stays m m' : stays m m' -> free_body m -> free_body m'.
Proof. intros (K & G & _) [H1 H2]. unfold free_body, weighs. rewrite K, G. split; assumption. Qed.

Lemma place_stays m m' : stays m m' -> place_of m' = place_of m.
Proof. intros (_ & _ & _ & _ & _ & E). unfold place_of, getnum. rewrite !E by (cbn; intuition discriminate). reflexivity. Qed.

Lemma free_moves m : free_body m -> instance_of (state_class (mo_kind m)) (mo_state m) -> exists v w c psi, ImpactSpec.moves m v w /\ stands m c psi /\ velocity_of m = (v, w) /\ place_of m = c.
Proof.
  intros [K _] I.
  assert (S : exists c psi, stands m c psi) by (unfold stands; destruct K as [K|[K|[K|K]]]; rewrite K in I; inst (mo_state m) I; eexists (_, _), _; repeat split; reflexivity).
  assert (V : exists v w, velocity m = Ok (v, w)) by (unfold velocity; destruct K as [K|[K|[K|K]]]; rewrite K in I |- *; inst (mo_state m) I; eexists _, _; reflexivity).
  destruct S as (c & psi & S), V as (v & w & V). exists v, w, c, psi. split; [exact V|]. split; [exact S|]. split; [unfold velocity_of; rewrite V; reflexivity|].
  destruct S as (X & Y & _). unfold place_of. rewrite (has_num _ _ _ X), (has_num _ _ _ Y). cbn. destruct c. reflexivity.
Qed.

Definition ready (m : model) : Prop := free_body m /\ instance_of (state_class (mo_kind m)) (mo_state m).

Lemma err_cases L C (sc : co_scen C) p q t a b a' b' e : resolve_models L C sc p q t a b = ((a', b'), Err e) -> (a' = a /\ b' = b) \/ (a' = collide a /\ b' = collide b).
Proof.
  unfold resolve_models. destruct (Nat.eqb_spec p q) as [->|N]; [discriminate|].
  unfold resolve_collision, agetE. destruct (pair_models p q a b a b N) as (Pa & Pb & _). rewrite Pa, Pb.
  destruct (compute_impact_geometry (li_shapely L) _ _) as [[nrm ip]|e0]; [|rewrite Pa, Pb; intros [= <- <- _]; left; auto].
  destruct (md_velocity (seen_by L) a) as [va wa], (md_velocity (seen_by L) b) as [vb wb]. destruct (match nrm with None => false | Some _ => _ end); [rewrite Pa, Pb; discriminate|].
  cbn zeta. cbn [md_set_collided seen_by seen].
  assert (X : forall x y, aset Nat.eqb (aset Nat.eqb [(p, a); (q, b)] p x) q y = [(p, x); (q, y)]) by (intros x y; apply pair_models; exact N).
  assert (Y : forall x y, aget Nat.eqb [(p, x); (q, y)] p = Some x /\ aget Nat.eqb [(p, x); (q, y)] q = Some y) by (intros x y; destruct (pair_models p q x y x y N) as (? & ? & _); auto).
  rewrite !X. destruct (impact_locations_from_polygons (li_shapely L) _ _ _) as [la|e0]; [|destruct (Y (collide a) (collide b)) as [-> ->]; intros [= <- <- _]; right; auto].
  destruct (impact_locations_from_polygons (li_shapely L) _ (collide b) _) as [lb|e0]; [|destruct (Y (collide a) (collide b)) as [-> ->]; intros [= <- <- _]; right; auto].
  match goal with |- context [match match co_net C sc with Some _ => _ | None => Ok (false, false) end with Ok _ => _ | Err _ => _ end] => destruct (match co_net C sc with Some _ => _ | None => Ok (false, false) end) as [[fa fb]|e0] end; [discriminate|destruct (Y (collide a) (collide b)) as [-> ->]; intros [= <- <- _]; right; auto].
Qed.

Lemma pair_keeps L C (sc : co_scen C) p q t a b a' b' out : resolve_models L C sc p q t a b = ((a', b'), out) -> ready a -> ready b ->
  (forall r d, out = Ok (Some r) -> r_data r = Some d -> rep_normal d <> None /\ rep_point d <> None) ->
  (ready a' /\ ready b') /\ mo_geo a' = mo_geo a /\ mo_geo b' = mo_geo b /\ vadd (push_of a') (push_of b') = vadd (push_of a) (push_of b) /\ (forall o, spin_of o a' + spin_of o b' = spin_of o a + spin_of o b) /\
  (0 <= ge_e (mo_geo a) <= 1 -> 0 <= ge_e (mo_geo b) <= 1 -> energy_of a' + energy_of b' <= energy_of a + energy_of b).
Proof.
  intros H [Fa Ia] [Fb Ib] Hr. destruct out as [[r|]|e].
  - assert (H' := H). unfold resolve_models in H. destruct (Nat.eqb_spec p q) as [->|N]; [discriminate|]. destruct (pair_models p q a b a b N) as (Pa & Pb & _).
    destruct (resolve_collision (li_shapely L) (seen_by L) p q _ _ _) as [ms' [[rep|]|e0]] eqn:E; cbn [as_outcome] in H; try discriminate H.
    apply pair_equal_spec in H as [H Ho]. apply pair_equal_spec in H as [Ha Hb]. assert (Er : r = as_report t rep) by congruence. clear Ho.
    destruct (Hr r rep eq_refl) as [Hn HP]; [subst r; reflexivity|]. destruct (rep_normal rep) as [n|] eqn:En; [|congruence]. destruct (rep_point rep) as [P|] eqn:EP; [|congruence].
    destruct (C43_resolved_pf _ _ _ (li_shapely L) (seen_by L) p q _ _ _ ms' rep (seen_flag_only _ _ _ _) N E) as (xa & xb & ya & yb & _ & _ & _ & _ & _ & Q5 & Q6 & _).
    rewrite Q5 in Ha. rewrite Q6 in Hb. subst a' b'.
    destruct (free_moves a Fa Ia) as (va & wa & ca & pa & Ma & Sa & Va & Ca). destruct (free_moves b Fb Ib) as (vb & wb & cb & pb & Mb & Sb & Vb & Cb).
    destruct Fa as [Ka (m1 & i1 & W1)]. destruct Fb as [Kb (m2 & i2 & W2)].
    destruct (resolved_two _ _ _ _ _ _ _ _ _ _ _ _ _ _ _ _ _ _ _ _ _ _ _ _ _ _ _ _ _ _ _ _ N E En EP Pa Pb Q5 Q6 W1 W2 Ma Mb Sa Sb) as (va' & wa' & vb' & wb' & T & Ea & Eb).
    destruct (free_written a va' wa' Ka Ia) as (na & E1 & N1 & N2 & N2'). destruct (free_written b vb' wb' Kb Ib) as (nb & E2 & N3 & N4 & N4').
    rewrite Ea, Eb, E1, E2. clear Ea Eb E1 E2 Q5 Q6 Hr Hn HP H'.
    pose proof (seen_flag_only (li_union L) (li_quad L) (li_valid L) (li_centroid L)) as F.
    destruct (C41_momentum_pf _ _ _ _ _ _ _ _ _ _ _ _ _ _ _ _ _ _ _ _ _ _ _ _ _ _ _ _ _ _ F T) as (Q1 & Q2 & _). pose proof (C42_energy_pf _ _ _ _ _ _ _ _ _ _ _ _ _ _ _ _ _ _ _ _ _ _ _ _ _ _ _ _ _ _ F T) as Q3.
    assert (Ga : mo_geo na = mo_geo a) by apply N2. assert (Gb : mo_geo nb = mo_geo b) by apply N4.
    assert (Pla : place_of na = ca) by (rewrite (place_stays _ _ N2); exact Ca). assert (Plb : place_of nb = cb) by (rewrite (place_stays _ _ N4); exact Cb).
    assert (Va' : velocity_of na = (va', wa')) by (unfold velocity_of; rewrite N1; reflexivity). assert (Vb' : velocity_of nb = (vb', wb')) by (unfold velocity_of; rewrite N3; reflexivity).
    assert (Mna : mass_of na = m1 /\ inertia_of na = i1 /\ mass_of a = m1 /\ inertia_of a = i1) by (unfold mass_of, inertia_of; rewrite Ga; destruct W1 as (-> & -> & _); auto).
    assert (Mnb : mass_of nb = m2 /\ inertia_of nb = i2 /\ mass_of b = m2 /\ inertia_of b = i2) by (unfold mass_of, inertia_of; rewrite Gb; destruct W2 as (-> & -> & _); auto).
    destruct Mna as (X1 & X2 & X3 & X4), Mnb as (Y1 & Y2 & Y3 & Y4). unfold push_of, spin_of, energy_of. rewrite Va, Vb, Va', Vb', Pla, Plb, Ca, Cb, X1, X2, X3, X4, Y1, Y2, Y3, Y4. cbn [fst snd].
    split; [split; (split; [eapply free_stays; [eassumption|split; eauto]|])|].
    + replace (mo_kind na) with (mo_kind a) by (symmetry; apply N2). exact N2'.
    + replace (mo_kind nb) with (mo_kind b) by (symmetry; apply N4). exact N4'.
    + split; [exact Ga|]. split; [exact Gb|]. split; [exact Q1|]. split; [exact Q2|]. intros Ea Eb. exact (proj1 (Q3 Ea Eb)).
  - destruct (resolve_cases _ _ _ _ _ _ _ _ _ _ _ H) as [(-> & -> & _)|(_ & _ & [[e X]|(d & X & _)])]; try discriminate X. split; [split; split; assumption|]. split; [reflexivity|]. split; [reflexivity|]. split; [reflexivity|]. split; [reflexivity|]. intros; lra.
  - destruct (err_cases _ _ _ _ _ _ _ _ _ _ _ H) as [[-> ->]|[-> ->]]; (split; [split; split; assumption|]); (split; [reflexivity|]); (split; [reflexivity|]); (split; [reflexivity|]); (split; [reflexivity|]); intros; change (energy_of (collide ?x)) with (energy_of x); lra.
Qed.

Lemma sum_dset (f : model -> R) ms p a a' : NoDup (akeys ms) -> dget ms p = Some a -> sum_up f 0 Rplus (dset ms p a') = sum_up f 0 Rplus ms - f a + f a'.
Proof.
  unfold sum_up. induction ms as [|[q b] ms IH]; intros N H; [discriminate H|]. unfold akeys in N. cbn in N. apply NoDup_cons_iff in N as [Nq N]. unfold aget, aset in *. cbn in H |- *.
  destruct (Nat.eqb_spec q p) as [->|Np].
  - assert (b = a) as -> by congruence. cbn. ring.
  - cbn. rewrite IH; [ring|exact N|exact H].
Qed.

Lemma sum_vec ms (f : model -> vec) : sum_up f (0, 0) vadd ms = (sum_up (fun m => fst (f m)) 0 Rplus ms, sum_up (fun m => snd (f m)) 0 Rplus ms).
Proof. unfold sum_up. induction ms as [|[p m] ms IH]; [reflexivity|]. cbn. rewrite IH. reflexivity. Qed.

Lemma sum_pair (f : model -> R) ms p q a b a' b' : NoDup (akeys ms) -> p <> q -> dget ms p = Some a -> dget ms q = Some b ->
  sum_up f 0 Rplus (dset (dset ms p a') q b') = sum_up f 0 Rplus ms - (f a + f b) + (f a' + f b').
Proof.
  intros N Npq A B. rewrite (sum_dset f (dset ms p a') q b b'); [|rewrite keys_dset; [exact N|eapply dget_Some_In; exact A]|rewrite dget_dset_other by congruence; exact B].
  rewrite (sum_dset f ms p a a' N A). ring.
Qed.

Lemma bumps_keep L C env sc t x y : many (bump (W := sim_world L C env) sc t) x y -> NoDup (akeys (fst x)) ->
  (forall p m, dget (fst x) p = Some m -> ready m) -> List.length (envs_of (snd y)) = List.length (envs_of (snd x)) ->
  (forall r d, In r (expected_reports (snd y)) -> r_time r = t -> r_data r = Some d -> rep_normal d <> None /\ rep_point d <> None) ->
  total_momentum (fst y) = total_momentum (fst x) /\ (forall o, total_spin o (fst y) = total_spin o (fst x)) /\
  ((forall p m, dget (fst x) p = Some m -> 0 <= ge_e (mo_geo m) <= 1) -> total_energy (fst y) <= total_energy (fst x)).
Proof.
  induction 1 as [x|x y z B M IH]; intros N Hr Le Hd; [split; [reflexivity|]; split; [reflexivity|]; intros; lra|].
  assert (Grow : (List.length (envs_of (snd y)) <= List.length (envs_of (snd z)))%nat /\ forall r, In r (expected_reports (snd y)) -> In r (expected_reports (snd z))).
  { refine (many_inv (bump sc t) (fun w => (List.length (envs_of (snd y)) <= List.length (envs_of (snd w)))%nat /\ forall r, In r (expected_reports (snd y)) -> In r (expected_reports (snd w))) _ _ _ M _); [|split; auto].
    intros v w Bv [I1 I2]. assert (X : exists e, snd w = e :: snd v) by (destruct Bv; cbn; eauto). destruct X as [e ->]. split.
    - unfold envs_of in *. cbn [rev]. rewrite flat_map_app, app_length. lia.
    - intros r Q. rewrite expected_cons. apply in_or_app. left. auto. }
  destruct Grow as [G1 G2].
  inversion B as [ms l p i ob m m' out A R E X Y|ms l p q a b a' b' out Npq A1 A2 R E X Y]; subst x y; cbn [fst snd] in *.
  - exfalso. assert (X : forall e : event (sim_world L C env), List.length (envs_of (e :: l)) = (List.length (envs_of l) + List.length (envs_of [e]))%nat) by (intro e; unfold envs_of; cbn [rev]; rewrite flat_map_app, app_length; cbn; reflexivity).
    rewrite X in G1. unfold envs_of at 2 in G1. cbn in G1. pose proof (eq_ind _ (fun n => (List.length (envs_of l) + 1 <= n)%nat) G1 _ Le) as G3. cbn beta in G3. clear - G3. lia.
  - destruct (pair_keeps L C sc p q t a b a' b' out R (Hr _ _ A1) (Hr _ _ A2)) as ((K1 & K2) & Ga & Gb & Kp & Ks & Ke).
    { intros r d Ho Hrd. pose proof (resolve_cases _ _ _ _ _ _ _ _ _ _ _ R) as RC. rewrite Ho in RC. apply (Hd r d).
      - apply G2. rewrite expected_cons, Ho. apply in_or_app. right. left. reflexivity.
      - destruct RC as [(_ & _ & [RC|[e RC]])|(_ & _ & [[e RC]|(d1 & RC & _)])]; [discriminate RC|discriminate RC|discriminate RC|]. injection RC as RC. rewrite RC. reflexivity.
      - exact Hrd. }
    assert (K' : akeys (dset (dset ms p a') q b') = akeys ms) by (rewrite !keys_dset; [reflexivity|eapply dget_Some_In; exact A1|rewrite keys_dset; [eapply dget_Some_In; exact A2|eapply dget_Some_In; exact A1]]).
    assert (D : forall r m, dget (dset (dset ms p a') q b') r = Some m -> (r = q /\ m = b') \/ (r = p /\ m = a') \/ dget ms r = Some m).
    { intros r m H. destruct (Nat.eq_dec r q) as [->|N1]; [rewrite dget_dset_same in H; left; split; congruence|]. rewrite dget_dset_other in H by congruence.
      destruct (Nat.eq_dec r p) as [->|N2]; [rewrite dget_dset_same in H; right; left; split; congruence|]. rewrite dget_dset_other in H by congruence. auto. }
    destruct IH as (I1 & I2 & I3).
    + rewrite K'. exact N.
    + intros r m H. destruct (D r m H) as [[_ ->]|[[_ ->]|H']]; eauto.
    + rewrite Le. unfold envs_of. cbn [rev]. rewrite flat_map_app. cbn. rewrite app_nil_r. reflexivity.
    + exact Hd.
    + rewrite I1. split; [|split].
      * unfold total_momentum. rewrite !sum_vec, !(sum_pair _ ms p q a b a' b' N Npq A1 A2). apply (f_equal fst) in Kp as Kx. apply (f_equal snd) in Kp as Ky. unfold push_of, vadd in Kx, Ky. cbn [fst snd] in Kx, Ky.
        f_equal; lra.
      * intro o. rewrite I2. unfold total_spin. rewrite (sum_pair _ ms p q a b a' b' N Npq A1 A2). specialize (Ks o). unfold spin_of in Ks. lra.
      * intro He. eapply Rle_trans; [apply I3|].
        -- intros r m H. destruct (D r m H) as [[_ ->]|[[_ ->]|H']]; [rewrite Gb|rewrite Ga|]; eauto.
        -- unfold total_energy. rewrite (sum_pair _ ms p q a b a' b' N Npq A1 A2). specialize (Ke (He _ _ A1) (He _ _ A2)). unfold energy_of in Ke. lra.
Qed.

(** In one iteration all the collisions among free bodies together keep the linear and the
    angular momentum of all models and do not add kinetic energy. *)
Theorem C126_conserved : forall L C env (c : ctx (sim_world L C env)) s0 k s s', started c s0 -> (0 < dt (g_param (c_cfg c)))%Qc -> after s0 k s -> c_term (cx s) = false -> step s = Ok s' ->
  (forall p (m : model), model_of s p = Some m -> free_body m /\ fits (mo_kind m) (mo_state m)) -> envs_of (ev s') = envs_of (ev s) ->
  (forall r d, In r (c_reports (cx s')) -> r_time r = time s' -> r_data r = Some d -> rep_normal d <> None /\ rep_point d <> None) ->
  exists ms : list (player * model), akeys ms = akeys (c_models (cx s)) /\ (forall p m, dget ms p = Some m <-> moved s s' p m) /\
    total_momentum (c_models (cx s')) = total_momentum ms /\ (forall o, total_spin o (c_models (cx s')) = total_spin o ms) /\
    ((forall p (m : model), model_of s p = Some m -> 0 <= ge_e (mo_geo m) <= 1) -> total_energy (c_models (cx s')) <= total_energy ms).
Proof.
  intros L C env c s0 k s s' S D A Ht Hs Hf He Hd. pose proof (started_facts c s0 k s S D A) as [I Cf P Mo _ _ _].
  destruct (step_micro s s' (i_nd _ I) (i_ndm _ I) Hs) as (mid & M1 & M2 & _).
  assert (N0 : NoDup (akeys (c_models (cx s)))) by (rewrite Mo; apply S).
  set (old := fun p (m : model) (l : list (event (sim_world L C env))) => (moves_of p l = SimulatorSpec.moves s p /\ model_of s p = Some m) \/ (exists nw e, moves_of p l = SimulatorSpec.moves s p ++ nw ++ [e] /\ snd e = m)%list).
  assert (Q : akeys (fst mid) = akeys (c_models (cx s)) /\ forall p (m : model), dget (fst mid) p = Some m -> ready m /\ (exists m0 : model, model_of s p = Some m0 /\ mo_geo m = mo_geo m0) /\ old p m (snd mid)).
  { refine (many_inv (W := sim_world L C env) (quiet (dt (param s))) (fun y : list (player * w_M (sim_world L C env)) * list (event (sim_world L C env)) => akeys (fst y) = akeys (c_models (cx s)) /\ forall p (m : model), dget (fst y) p = Some m -> ready m /\ (exists m0 : model, model_of s p = Some m0 /\ mo_geo m = mo_geo m0) /\ old p m (snd y)) _ _ _ M1 _).
    - intros x y Qu [J1 J2]. inversion Qu as [ms l p' t f o u E1 E2|ms l p' t E1 E2|ms l p' t u m0 m1 G St E1 E2]; subst x y; cbn [fst snd] in *.
      + split; [exact J1|]. intros p m Hm. destruct (J2 p m Hm) as (T1 & T2 & T3). split; [exact T1|]. split; [exact T2|]. unfold old in *. rewrite moves_of_cons. unfold moves_of at 2 4. cbn. rewrite !app_nil_r. exact T3.
      + split; [exact J1|]. intros p m Hm. destruct (J2 p m Hm) as (T1 & T2 & T3). split; [exact T1|]. split; [exact T2|]. unfold old in *. rewrite moves_of_cons. unfold moves_of at 2 4. cbn. rewrite !app_nil_r. exact T3.
      + split; [rewrite keys_dset; [exact J1|eapply dget_Some_In; exact G]|]. intros p m Hm. destruct (Nat.eq_dec p p') as [->|Np].
        * rewrite dget_dset_same in Hm. assert (m = m1) as -> by congruence. destruct (J2 p' m0 G) as ((F1 & F2) & (mi & T1 & T2) & T3).
          pose proof (C122_frame_pf _ _ _ _ _ St) as (H1 & _ & H2). destruct H1 as (H1 & _ & H3 & _). split; [|split].
          -- split; [unfold free_body, weighs in *; rewrite H1, H3; exact F1|rewrite H1; exact H2].
          -- exists mi. split; [exact T1|congruence].
          -- right. rewrite moves_of_cons. unfold moves_of at 2. cbn. rewrite Nat.eqb_refl.
             destruct T3 as [[T3 _]|(nw & e & T3 & _)]; rewrite T3; [exists [], (t, u, m0, m1); split; reflexivity|exists (nw ++ [e])%list, (t, u, m0, m1); split; [rewrite <- !app_assoc; reflexivity|reflexivity]].
        * rewrite dget_dset_other in Hm by congruence. destruct (J2 p m Hm) as (T1 & T2 & T3). split; [exact T1|]. split; [exact T2|]. unfold old in *. rewrite moves_of_cons. unfold moves_of at 2 4. cbn. destruct (Nat.eqb_spec p' p); [congruence|]. cbn. rewrite !app_nil_r. exact T3.
    - split; [reflexivity|]. intros p m Hm. destruct (Hf p m Hm) as [F1 [_ F2]]. split; [split; [exact F1|apply F2; destruct F1 as [[K|[K|[K|K]]] _]; rewrite K; discriminate]|]. split; [exists m; split; [exact Hm|reflexivity]|]. left. split; [reflexivity|exact Hm]. }
  destruct Q as (Q1 & Q3). exists (fst mid). split; [exact Q1|].
  assert (Mv : forall p, moves_of p (snd mid) = SimulatorSpec.moves s' p).
  { intro p. unfold SimulatorSpec.moves. change (ev s') with (snd (snap_of s')). refine (many_inv (W := sim_world L C env) (bump _ _) (fun y : list (player * w_M (sim_world L C env)) * list (event (sim_world L C env)) => moves_of p (snd mid) = moves_of p (snd y)) _ _ _ M2 eq_refl).
    intros x y Bu ->. inversion Bu; subst x y; cbn [snd]; rewrite (moves_of_cons p _ l); unfold moves_of at 3; cbn; rewrite app_nil_r; reflexivity. }
  assert (En : List.length (envs_of (snd (snap_of s'))) = List.length (envs_of (snd mid))).
  { change (snd (snap_of s')) with (ev s'). rewrite He. f_equal. change (ev s) with (snd (snap_of s)). refine (many_inv (W := sim_world L C env) (quiet _) (fun y : list (player * w_M (sim_world L C env)) * list (event (sim_world L C env)) => envs_of (snd (snap_of s)) = envs_of (snd y)) _ _ _ M1 eq_refl).
    intros x y Qu ->. inversion Qu; subst x y; cbn [snd]; unfold envs_of; cbn [rev]; rewrite flat_map_app; cbn; rewrite app_nil_r; reflexivity. }
  split.
  { intros p m. destruct (C22_model_stepped_each_iteration_pf _ c s0 k s s' p S D A Ht Hs) as [Y1 Y2]. unfold moved. split.
    - intro Hm. destruct (Q3 p m Hm) as (_ & (m0 & T1 & _) & T3). unfold old in T3. rewrite Mv in T3. destruct (in_dec Nat.eq_dec p (akeys (c_players (cx s)))) as [Ac|Na].
      + left. split; [exact Ac|]. destruct (Y1 Ac) as (u & m1 & m2 & Z1 & Z2 & Z3 & _). destruct T3 as [[T3 _]|(nw & e & T3 & T4)].
        * exfalso. rewrite T3 in Z3. apply (f_equal (@List.length _)) in Z3. rewrite app_length in Z3. cbn in Z3. lia.
        * rewrite T3 in Z3. apply app_inv_head in Z3. destruct nw as [|e1 nw]; [|apply (f_equal (@List.length _)) in Z3; cbn in Z3; rewrite app_length in Z3; cbn in Z3; lia].
          cbn in Z3. injection Z3 as ->. cbn in T4. subst m2. exists u, m1. rewrite T3. reflexivity.
      + right. split; [exact Na|]. destruct (Y2 Na) as [Z1 _]. destruct T3 as [[_ T3]|(nw & e & T3 & _)]; [exact T3|]. exfalso. rewrite T3 in Z1. apply (f_equal (@List.length _)) in Z1. rewrite !app_length in Z1. cbn in Z1. lia.
    - intro Hm. assert (Kp : In p (akeys (c_models (cx s)))).
      { destruct Hm as [[Ac _]|[_ Hm]]; [|eapply dget_Some_In; exact Hm]. destruct (Y1 Ac) as (u & m1 & m2 & Z1 & _). eapply dget_Some_In. exact Z1. }
      rewrite <- Q1 in Kp. apply In_keys_dget in Kp as [mm Em]. cut (mm = m); [intros <-; exact Em|]. destruct (Q3 p mm Em) as (_ & _ & T3). unfold old in T3. rewrite Mv in T3.
      destruct Hm as [[Ac (u & m0 & Z)]|[Na Z]].
      + destruct T3 as [[T3 _]|(nw & e & T3 & T4)]; [exfalso; rewrite T3 in Z; apply (f_equal (@List.length _)) in Z; rewrite app_length in Z; cbn in Z; lia|].
        rewrite T3 in Z. apply app_inv_head in Z. destruct nw as [|e1 nw]; [|apply (f_equal (@List.length _)) in Z; cbn in Z; rewrite app_length in Z; cbn in Z; lia]. cbn in Z. injection Z as ->. symmetry. exact T4.
      + destruct (Y2 Na) as [Z1 _]. destruct T3 as [[_ T3]|(nw & e & T3 & _)]; [congruence|]. exfalso. rewrite T3 in Z1. apply (f_equal (@List.length _)) in Z1. rewrite !app_length in Z1. cbn in Z1. lia. }
  destruct (bumps_keep L C env _ _ _ _ M2) as (R1 & R2 & R3).
  - rewrite Q1. exact N0.
  - intros p m Hm. apply (Q3 p m Hm).
  - exact En.
  - intros r d Hr. apply Hd. rewrite (C27_reports_are_the_calls_pf _ c s0 _ s' S D (after_S _ _ _ _ A Ht Hs)). apply in_or_app. right. exact Hr.
  - split; [exact R1|]. split; [exact R2|]. intro Hc. apply R3. intros p m Hm. destruct (Q3 p m Hm) as (_ & (m0 & T1 & T2) & _). rewrite T2. exact (Hc p m0 T1).
Qed.

(** The first of the two iterations alone. *)
Lemma one_step (W : world) (sc : w_scen W) (A B : w_A W) (u v : w_U W) (a b a' b' : w_M W) r :
  (forall p n g m, agent_init W A p n sc g m = Ok A) -> (forall p n g m, agent_init W B p n sc g m = Ok B) -> (forall o, agent_cmds W A o = Ok (A, u)) -> (forall o, agent_cmds W B o = Ok (B, v)) ->
  agent_extra W A = Ok (A, None) -> agent_extra W B = Ok (B, None) -> (forall o p, sense W (id_filter W) sc o p = Ok (id_filter W, o)) -> (forall f, env_query W sc f = []) ->
  (forall d, model_step W a u d = Ok a) -> (forall d, model_step W b v d = Ok b) ->
  intersects W (footprint W a) (footprint W b) = true -> resolve W sc 1 2 (qz (-1) + qz 1)%Qc a b = ((a', b'), Ok (Some r)) ->
  let c := mkCtx (mkConfig sc (mkParam (qz 1) (qz 1) (qz 0) (qz 10)) [] true 0%nat) [(1%nat, a); (2%nat, b)] [(1%nat, A); (2%nat, B)] [] [] (qz (-1)) false [] None in
  exists s0 s1, started c s0 /\ step s0 = Ok s1 /\ c_term (cx s0) = false /\ c_models (cx s0) = [(1%nat, a); (2%nat, b)] /\ c_models (cx s1) = [(1%nat, a'); (2%nat, b')] /\ c_reports (cx s1) = [r] /\ envs_of (ev s1) = envs_of (ev s0) /\ c_term (cx s1) = false /\ akeys (c_players (cx s1)) = [1; 2]%nat.
Proof.
  intros IA IB CA CB XA XB SE Q Sa Sb It Re c.
  assert (V : valid_ctx c) by (split; [reflexivity|]; repeat split; cbn; repeat constructor; cbn; intuition congruence).
  revert Re. match goal with |- ?P -> _ => let Q := eval lazy - [w_X w_U w_M w_A w_G w_S w_F w_O w_E w_I w_D w_scen get_state footprint intersects is_dyn model_step agent_init agent_cmds agent_extra goal_done sense id_filter cpu_time env_query obstacles resolve resolve_env] in P in change P with Q end. intro Re.
  eassert (E0 : init_run c new_simulator = Ok _) by (stage; rewrite !IA; stage; rewrite !IB; stage; reflexivity).
  match type of E0 with _ = Ok ?s => eassert (E1 : pre_update s = Ok _) by (stage; reflexivity) end.
  match type of E1 with _ = Ok ?s => eassert (E2 : update_player (qz (-1)) s 1%nat = Ok _) by (stage; rewrite SE; stage; rewrite CA; stage; rewrite XA; stage; rewrite Sa; stage; reflexivity) end.
  match type of E2 with _ = Ok ?s => eassert (E3 : update_player (qz (-1)) s 2%nat = Ok _) by (stage; rewrite SE; stage; rewrite CB; stage; rewrite XB; stage; rewrite Sb; stage; reflexivity) end.
  match type of E3 with _ = Ok ?s => eassert (E4 : (if need_commands s then Ok (upd_sm s (set_last (sm s) (Some (qz (-1))))) else Ok s) = Ok _) by (stage; reflexivity) end.
  match type of E4 with _ = Ok ?s => eassert (E5 : post_update s = Ok _) by (stage; rewrite !Q; stage; rewrite It; stage; rewrite Re; stage; reflexivity) end.
  assert (K1 : forall s x1 x2 x3 x4 x5, pre_update s = Ok x1 -> akeys (c_players (cx x1)) = [1; 2]%nat -> update_player (time x1) x1 1%nat = Ok x2 -> update_player (time x1) x2 2%nat = Ok x3 ->
    (if need_commands x3 then Ok (upd_sm x3 (set_last (sm x3) (Some (time x1)))) else Ok x3) = Ok x4 -> post_update x4 = Ok x5 -> step (W := W) s = Ok x5).
  { intros s x1 x2 x3 x4 x5 H1 H2 H3 H4 H5 H6. unfold step, update. rewrite H1, H2. cbn [rfold]. rewrite H3. rewrite H4, H5. exact H6. }
  eexists _, _. split; [split; [exact V|]; exists new_simulator; split; [reflexivity|exact E0]|]. split; [exact (K1 _ _ _ _ _ _ E1 eq_refl E2 E3 E4 E5)|]. clear.
  split; [reflexivity|]. split; [reflexivity|]. split; [reflexivity|]. split; [reflexivity|]. split; [reflexivity|]. split; reflexivity.
Qed.

(** Two blocks. *)
Definition slider : model := block (15 / 10) 0 1 900 1000 (8 / 10).

Definition rink : ctx crash_world := mkCtx (W := crash_world) (mkConfig (W := crash_world) tt (mkParam (qz 1) (qz 1) (qz 0) (qz 10)) [] true 0%nat) [(1%nat, slider); (2%nat, rogue)] [(1%nat, drift); (2%nat, drift)] [] [] (qz (-1)) false [] None.

(** Two moving blocks that run into each other meet the hypotheses, also those of
    C123_collisions. *)
Example C126_ex : exists s0 s (a' b' : model), started rink s0 /\ (0 < dt (g_param (c_cfg rink)))%Qc /\ after s0 0 s0 /\ c_term (cx s0) = false /\ step s0 = Ok s /\
  (forall p (m : model), model_of s0 p = Some m -> free_body m /\ fits (mo_kind m) (mo_state m)) /\ envs_of (ev s) = envs_of (ev s0) /\
  (forall r d, In r (c_reports (cx s)) -> r_time r = time s -> r_data r = Some d -> rep_normal d <> None /\ rep_point d <> None) /\
  (forall p (m : model), model_of s0 p = Some m -> 0 <= ge_e (mo_geo m) <= 1) /\ c_models (cx s) = [(1%nat, a'); (2%nat, b')] /\ mo_collided a' = true /\ mo_collided b' = true /\ total_momentum (c_models (cx s0)) = (-400, 0) /\
  (forall f g, CollModel.intersects crash_site f g = CollModel.intersects crash_site g f) /\ c_term (cx s) = false /\ active s 1 /\ active s 2 /\
  (exists fa, get_footprint joined_points 16 any_shape a' = Ok fa) /\ exists fb, get_footprint joined_points 16 any_shape b' = Ok fb.
Proof.
  destruct (a_block (15 / 10) 0 1 900 1000 (8 / 10)) as (Ha & Ia & Sa & Wa & Ma & xa & la & La); [lra|lra|]. fold slider in *.
  destruct (a_block (21 / 10) 0 (-1) 1300 1600 (5 / 10)) as (Hb & Ib & Sb & Wb & Mb & xb & lb & Lb); [lra|lra|]. fold rogue in *.
  assert (N1 : vdot ((1, 0) : vec) (1, 0) = 1) by (unfold vdot; cbn; lra).
  destruct (happens (18 / 10, 0) (1, 0) (4 / 10) slider rogue (1, 0) 0 (-1, 0) 0 (15 / 10, 0) 0 (21 / 10, 0) 0 la lb xa xb N1 ltac:(lra) ltac:(unfold vdot; cbn; lra) Ia Ib Ma Mb Sa Sb La Lb) as (ms' & rep & na & nb & C).
  { unfold contact, vdot, vsub. cbn [fst snd]. lra. }
  pose proof (crash_resolves crash_site idle _ _ _ _ _ _ _ _ _ t_zero C) as Re.
  assert (Fa : free_body slider /\ fits (mo_kind slider) (mo_state slider)).
  { split; [split; [right; left; reflexivity|exists 900, 1000; exact Wa]|]. split; [|intros _; exact Ia]. intros f If. cbn in If. repeat (destruct If as [<-|If]; [eexists; reflexivity|]). destruct If. }
  assert (Fb : free_body rogue /\ fits (mo_kind rogue) (mo_state rogue)).
  { split; [split; [right; left; reflexivity|exists 1300, 1600; exact Wb]|]. split; [|intros _; exact Ib]. intros f If. cbn in If. repeat (destruct If as [<-|If]; [eexists; reflexivity|]). destruct If. }
  destruct (resolve_cases _ _ _ _ _ _ _ _ _ _ _ Re) as [(_ & _ & [H|[e H]])|(Hna & Hnb & _)]; try discriminate H.
  destruct (one_step crash_world tt drift drift drift drift slider rogue na nb (as_report (qz (-1) + qz 1)%Qc rep)) as (s0 & s & S & St & T & M0 & M1 & Rp & En & T1 & A1); try reflexivity.
  - exact Re.
  - assert (Mod : forall p (m : model), model_of s0 p = Some m -> m = slider \/ m = rogue).
    { intros p m Hm. unfold model_of in Hm. rewrite M0 in Hm. unfold aget in Hm. destruct (Nat.eqb 1 p); [left; congruence|]. destruct (Nat.eqb 2 p); [right; congruence|discriminate]. }
    exists s0, s, na, nb. split; [exact S|]. split; [reflexivity|]. split; [constructor|]. split; [exact T|]. split; [exact St|]. split; [|split; [exact En|split; [|split; [|split; [exact M1|split; [apply Hna|split; [apply Hnb|split; [|split; [intros f g; reflexivity|split; [exact T1|split; [unfold active; rewrite A1; left; reflexivity|split; [unfold active; rewrite A1; right; left; reflexivity|split]]]]]]]]]]]].
    + intros p m Hm. destruct (Mod p m Hm) as [-> | ->]; assumption.
    + intros r d Hr _ Hd. rewrite Rp in Hr. destruct Hr as [<-|[]]. cbn in Hd. assert (d = rep) as -> by congruence. destruct C as (_ & _ & Cn & Cp & _). rewrite Cn, Cp. split; discriminate.
    + intros p m Hm. destruct (Mod p m Hm) as [-> | ->]; cbn; lra.
    + rewrite M0. unfold total_momentum, sum_up. cbn [fold_right snd]. assert (E1 : velocity_of slider = ((1, 0), 0)) by (unfold velocity_of; unfold ImpactSpec.moves in Ma; rewrite Ma; reflexivity). assert (E2 : velocity_of rogue = ((-1, 0), 0)) by (unfold velocity_of; unfold ImpactSpec.moves in Mb; rewrite Mb; reflexivity).
      rewrite E1, E2. unfold momentum, mass_of, vscale, vadd. cbn. f_equal; lra.
    + destruct Hna as (_ & Q & _). eexists. rewrite (stays_footprint _ _ _ _ _ Q). exact (C115_obstacle_pf joined_points 16 any_shape _ _ _ Sa eq_refl).
    + destruct Hnb as (_ & Q & _). eexists. rewrite (stays_footprint _ _ _ _ _ Q). exact (C115_obstacle_pf joined_points 16 any_shape _ _ _ Sb eq_refl).
Qed.
