From Coq Require Import Reals Lra Psatz List Bool Arith Lia.
From Verif Require Import Base R2 GeoModel GeoProofs DataModel DynModel DynSpec DynProofs MoveModel MoveSpec.
Import ListNotations.
Open Scope R_scope.

(** *** Runge-Kutta methods commute with affine maps *)

Section Equivariant.
Context {Y : Type} (add : Y -> Y -> Y) (scale : R -> Y -> Y) (f f' : Y -> option Y) (A L : Y -> Y).
Context (HA : forall y k z, A (add y (scale k z)) = add (A y) (scale k (L z))) (Hf : forall y, f' (A y) = option_map L (f y)).

Lemma comb_eqv h : forall cs ks y, A (rk_comb add scale y h cs ks) = rk_comb add scale (A y) h cs (map L ks).
Proof.
  unfold rk_comb. induction cs as [|c cs IH]; intros ks y; [reflexivity|]. destruct ks as [|k ks]; [reflexivity|]. cbn [combine map fold_left fst snd]. rewrite IH, HA. reflexivity.
Qed.

Lemma stages_eqv h y : forall rows ks, rk_stages add scale f' (A y) h rows (map L ks) = option_map (map L) (rk_stages add scale f y h rows ks).
Proof.
  induction rows as [|r rs IH]; intro ks; cbn [rk_stages]; [reflexivity|]. rewrite <- comb_eqv, Hf. destruct (f (rk_comb add scale y h r ks)) as [k|]; cbn [option_map]; [|reflexivity].
  rewrite <- IH. rewrite map_app. reflexivity.
Qed.

Lemma solve_eqv tab : forall hs y, rk_solve add scale f' tab (A y) hs = option_map A (rk_solve add scale f tab y hs).
Proof.
  induction hs as [|h hs IH]; intro y; cbn [rk_solve]; [reflexivity|]. unfold rk_step. change (@nil Y) with (map L []). rewrite stages_eqv. cbn [map].
  destruct (rk_stages add scale f y h (fst tab) []) as [ks|]; cbn [option_map]; [|reflexivity]. rewrite <- comb_eqv. apply IH.
Qed.
End Equivariant.

Section Plant.
Context {X U : Type} (P : plant X U) (A L : X -> X) (B : U -> U) (c : bool).
Context (HA : forall x k d, A (p_addX P x (p_scaleX P k d)) = p_addX P (A x) (p_scaleX P k (L d)))
        (HB : forall u k d, B (p_addU P u (p_scaleU P k d)) = p_addU P (B u) (p_scaleU P k (B d)))
        (HB0 : forall u, p_scaleU P 0 (B u) = B (p_scaleU P 0 u)) (HZ : B (p_zero P) = p_zero P)
        (HD : forall self x u, p_dynamics P c (A self) (A x) (B u) = option_map L (p_dynamics P c self x u)).

Lemma update_eqv tab st u hs : update P tab c (A st) (B u) hs = option_map A (update P tab c st u hs).
Proof.
  unfold update. set (A' := fun y : X * U => (A (fst y), B (snd y))). set (L' := fun y : X * U => (L (fst y), B (snd y))).
  change (A st, B u) with (A' (st, u)).
  rewrite (solve_eqv _ _ (fun y => match p_dynamics P c st (fst y) (if p_ignore P c then p_zero P else snd y) with Some dx => Some (dx, p_scaleU P 0 (snd y)) | None => None end) _ A' L').
  - destruct (rk_solve _ _ _ tab (st, u) hs) as [[x v]|]; reflexivity.
  - intros [x v] k [d w]. unfold A', L'. cbn [fst snd]. rewrite HA, HB. reflexivity.
  - intros [x v]. unfold A', L'. cbn [fst snd]. destruct (p_ignore P c).
    + rewrite <- HZ at 1. rewrite HD. destruct (p_dynamics P c st x (p_zero P)); cbn [option_map fst snd]; [rewrite HB0|]; reflexivity.
    + rewrite HD. destruct (p_dynamics P c st x v); cbn [option_map fst snd]; [rewrite HB0|]; reflexivity.
Qed.

Lemma updates_eqv tab : forall l st, updates P tab c (A st) (map (fun uh => (B (fst uh), snd uh)) l) = option_map A (updates P tab c st l).
Proof.
  induction l as [|[u hs] l IH]; intro st; cbn [updates map fst snd]; [reflexivity|]. rewrite update_eqv. destruct (update P tab c st u hs) as [st'|]; cbn [option_map]; [apply IH|reflexivity].
Qed.
End Plant.

Section PlantId.
Context {X U : Type} (P : plant X U) (A L : X -> X) (c : bool).
Context (HA : forall x k d, A (p_addX P x (p_scaleX P k d)) = p_addX P (A x) (p_scaleX P k (L d)))
        (HD : forall self x u, p_dynamics P c (A self) (A x) u = option_map L (p_dynamics P c self x u)).
Lemma updates_eqv_id tab l st : updates P tab c (A st) l = option_map A (updates P tab c st l).
Proof.
  rewrite <- (updates_eqv P A L (fun u => u) c); auto. f_equal. symmetry. rewrite <- (map_id l) at 2. apply map_ext. intros []; reflexivity.
Qed.
End PlantId.

(** The linear parts. *)
Definition vst_lin a (x : vst) : vst := let q := turned a (v_x x, v_y x) in mkV (fst q) (snd q) (v_psi x) (v_vx x) (v_delta x).
Definition dst_lin a (x : dst) : dst := let q := turned a (d_x x, d_y x) in mkD (fst q) (snd q) (d_psi x) (d_vx x) (d_vy x) (d_dpsi x) (d_delta x).
Definition st6_lin a (x : st6) : st6 := let q := turned a (s_x x, s_y x) in mk6 (fst q) (snd q) (s_psi x) (s_vx x) (s_vy x) (s_dpsi x).
Definition st3_lin a (x : st3) : st3 := let q := turned a (w_x x, w_y x) in mk3 (fst q) (snd q) (w_psi x).
Definition st8_lin a (x : st8) : st8 := let q := turned a (r_x x, r_y x) in mk8 (fst q) (snd q) (r_psi x) (r_vx x) (r_vy x) (r_dpsi x) (r_ang x) (r_m x).
Definition rocket_lin a (x : st8) : st8 := let q := turned a (r_x x, r_y x) in let v := turned a (r_vx x, r_vy x) in mk8 (fst q) (snd q) (r_psi x) (fst v) (snd v) (r_dpsi x) (r_ang x) (r_m x).

Ltac affine := intros; unfold vehicle_plant, bicycle_plant, vehicle_dyn_plant, pedestrian_plant, diff_drive_plant, spacecraft_plant, obstacle_plant, rocket_plant, spaceship_plant;
  cbn [p_addX p_scaleX p_addU p_scaleU p_zero];
  unfold vst_add, vst_scale, dst_add, dst_scale, st6_add, st6_scale, st8_add, st8_scale, st3_add, st3_scale, vcm_add, vcm_scale,
    vst_at, dst_at, st6_at, st3_at, st8_at, rocket_at, vst_lin, dst_lin, st6_lin, st3_lin, st8_lin, rocket_lin, placed, turned,
    vst_mirror, dst_mirror, st6_mirror, st3_mirror, rocket_mirror, spaceship_mirror, vcm_mirror, pcm_mirror, wcm_mirror, scm_mirror, ocm_mirror, rcm_mirror, ssc_mirror;
  cbn [fst snd v_x v_y v_psi v_vx v_delta d_x d_y d_psi d_vx d_vy d_dpsi d_delta s_x s_y s_psi s_vx s_vy s_dpsi r_x r_y r_psi r_vx r_vy r_dpsi r_ang r_m w_x w_y w_psi
       c_acc c_ddelta pc_acc pc_dpsi wc_l wc_r sc_l sc_r oc_x oc_y oc_psi rc_l rc_r rc_dphi ss_thrust ss_ddelta];
  f_equal; ring.

(** *** Motions from the same start *)

Lemma cont_sub f g T : cont_on f T -> cont_on g T -> cont_on (fun t => f t - g t) T.
Proof.
  intros F G t Ht eps He. destruct (F t Ht (eps / 2) ltac:(lra)) as (d1 & H1 & Q1). destruct (G t Ht (eps / 2) ltac:(lra)) as (d2 & H2 & Q2).
  exists (Rmin d1 d2). split; [apply Rmin_glb_lt; assumption|]. intros s Hs Hd. pose proof (Rmin_l d1 d2). pose proof (Rmin_r d1 d2).
  specialize (Q1 s Hs ltac:(lra)). specialize (Q2 s Hs ltac:(lra)). apply Rabs_def2 in Q1. apply Rabs_def2 in Q2. apply Rabs_def1; lra.
Qed.
Lemma right_deriv_sub f g t l m : right_deriv f t l -> right_deriv g t m -> right_deriv (fun t => f t - g t) t (l - m).
Proof.
  intros F G eps He. destruct (F (eps / 2) ltac:(lra)) as (d1 & H1 & Q1). destruct (G (eps / 2) ltac:(lra)) as (d2 & H2 & Q2).
  exists (Rmin d1 d2). split; [apply Rmin_glb_lt; assumption|]. intros h Hh. pose proof (Rmin_l d1 d2). pose proof (Rmin_r d1 d2).
  specialize (Q1 h ltac:(lra)). specialize (Q2 h ltac:(lra)). apply Rabs_def2 in Q1. apply Rabs_def2 in Q2.
  replace ((f (t + h) - g (t + h) - (f t - g t)) / h - (l - m)) with (((f (t + h) - f t) / h - l) - ((g (t + h) - g t) / h - m)) by (field; lra). apply Rabs_def1; lra.
Qed.
(** [f] grows no faster than [g]. *)
Lemma evolves_le f r g r' T : evolves f r T -> evolves g r' T -> f 0 <= g 0 -> (forall t, 0 <= t < T -> r t <= r' t) -> forall t, 0 <= t <= T -> f t <= g t.
Proof.
  intros [Cf Df] [Cg Dg] H0 Hr t Ht.
  assert (D : (fun t => f t - g t) t <= (fun t => f t - g t) 0).
  { apply (decreasing (fun t => f t - g t) T (cont_sub _ _ _ Cf Cg)); try lra. intros s Hs. exists (r s - r' s). split; [apply right_deriv_sub; [apply Df|apply Dg]; lra|]. specialize (Hr s ltac:(lra)). lra. }
  cbv beta in D. lra.
Qed.
Lemma evolves_eq f r g r' T : evolves f r T -> evolves g r' T -> f 0 = g 0 -> (forall t, 0 <= t < T -> r t = r' t) -> forall t, 0 <= t <= T -> f t = g t.
Proof.
  intros F G H0 Hr t Ht. apply Rle_antisym.
  - apply (evolves_le f r g r' T F G); [lra| intros s Hs; rewrite Hr by exact Hs; lra| exact Ht].
  - apply (evolves_le g r' f r T G F); [lra| intros s Hs; rewrite Hr by exact Hs; lra| exact Ht].
Qed.

(** A rate that a limit may replace by zero is constant as long as the limits are not
    reached. *)
Lemma limited_affine f lim a lo hi T : evolves f (fun t => lim (f t)) T -> (forall v, lim v = a \/ lim v = 0) -> (forall v, 0 < a -> v < hi -> lim v = a) -> (forall v, a < 0 -> lo < v -> lim v = a) ->
  inside (f 0) lo hi -> inside (f 0 + a * T) lo hi -> forall t, 0 <= t <= T -> f t = f 0 + a * t.
Proof.
  intros E Two Up Down I0 IT t Ht. unfold inside in *.
  assert (Aff : evolves (fun t => f 0 + a * t) (fun _ => a) T) by apply evolves_affine.
  apply (evolves_eq f (fun t => lim (f t)) _ (fun _ => a) T E Aff); [lra| |exact Ht].
  intros s Hs. cbv beta. destruct (Rtotal_order a 0) as [Ha|[Ha|Ha]].
  - apply Down; [exact Ha|]. assert (K : f 0 + a * s <= f s).
    { apply (evolves_le (fun t => f 0 + a * t) (fun _ => a) f (fun t => lim (f t)) T Aff E); [lra| |lra]. intros q _. destruct (Two (f q)) as [->| ->]; lra. }
    assert (a * T <= a * s) by nra. lra.
  - destruct (Two (f s)) as [->| ->]; lra.
  - apply Up; [exact Ha|]. assert (K : f s <= f 0 + a * s).
    { apply (evolves_le f (fun t => lim (f t)) (fun t => f 0 + a * t) (fun _ => a) T E Aff); [lra| |lra]. intros q _. destruct (Two (f q)) as [->| ->]; lra. }
    assert (a * s <= a * T) by nra. lra.
Qed.

(** *** Limits that do not act *)

Lemma acc_free v a p : within a (mp_alo p) (mp_ahi p) -> inside v (mp_vlo p) (mp_vhi p) -> apply_full_acceleration_limits v a p = a.
Proof. unfold within, inside, apply_full_acceleration_limits, apply_speed_constraint, apply_acceleration_limits. intros Ha Hv. cmp. Qed.
Lemma steer_free d w dm ddm : within w (- ddm) ddm -> inside d (- dm) dm -> steering_constraint d w dm ddm = w.
Proof. unfold within, inside, steering_constraint. intros Hw Hd. cmp. Qed.
Lemma acc_two v a p : within a (mp_alo p) (mp_ahi p) -> apply_full_acceleration_limits v a p = a \/ apply_full_acceleration_limits v a p = 0.
Proof. unfold within, apply_full_acceleration_limits, apply_speed_constraint, apply_acceleration_limits. intros Ha. cmp; auto. Qed.
Lemma steer_two d w dm ddm : within w (- ddm) ddm -> steering_constraint d w dm ddm = w \/ steering_constraint d w dm ddm = 0.
Proof. unfold within, steering_constraint. intros Ha. cmp; auto. Qed.
Lemma acc_up v a p : within a (mp_alo p) (mp_ahi p) -> 0 < a -> v < mp_vhi p -> apply_full_acceleration_limits v a p = a.
Proof. unfold within, apply_full_acceleration_limits, apply_speed_constraint, apply_acceleration_limits. intros Ha Hv Hh. cmp. Qed.
Lemma acc_down v a p : within a (mp_alo p) (mp_ahi p) -> a < 0 -> mp_vlo p < v -> apply_full_acceleration_limits v a p = a.
Proof. unfold within, apply_full_acceleration_limits, apply_speed_constraint, apply_acceleration_limits. intros Ha Hv Hh. cmp. Qed.
Lemma steer_up d w dm ddm : within w (- ddm) ddm -> 0 < w -> d < dm -> steering_constraint d w dm ddm = w.
Proof. unfold within, steering_constraint. intros Hw H0 Hd. cmp. Qed.
Lemma steer_down d w dm ddm : within w (- ddm) ddm -> w < 0 -> - dm < d -> steering_constraint d w dm ddm = w.
Proof. unfold within, steering_constraint. intros Hw H0 Hd. cmp. Qed.

Lemma same_rates g p x u : within (c_acc u) (mp_alo (vp_m p)) (mp_ahi (vp_m p)) -> within (c_ddelta u) (- vp_ddmax p) (vp_ddmax p) ->
  inside (v_vx x) (mp_vlo (vp_m p)) (mp_vhi (vp_m p)) -> inside (v_delta x) (- vp_dmax p) (vp_dmax p) -> vehicle_dynamics g p x u = bicycle_dynamics g x u.
Proof. intros. unfold vehicle_dynamics, bicycle_dynamics. rewrite acc_free, steer_free by assumption. reflexivity. Qed.

(** *** Integration steps of both models *)

Section Steps.
Context (g : vgeo) (p : vpar) (u : vcm).
Definition yadd (a b : vst * vcm) := (vst_add (fst a) (fst b), vcm_add (snd a) (snd b)).
Definition yscale (k : R) (a : vst * vcm) := (vst_scale k (fst a), vcm_scale k (snd a)).
Definition fb (y : vst * vcm) : option (vst * vcm) := Some (bicycle_dynamics g (fst y) (snd y), vcm_scale 0 (snd y)).
Definition fv (y : vst * vcm) : option (vst * vcm) := Some (vehicle_dynamics g p (fst y) (snd y), vcm_scale 0 (snd y)).
Definition straight (k : vst * vcm) : Prop := v_vx (fst k) = c_acc u /\ v_delta (fst k) = c_ddelta u /\ snd k = mkVCm 0 0.

Lemma comb_straight h : forall cs ks (y : vst * vcm), Forall straight ks -> (length cs <= length ks)%nat ->
  let y' := rk_comb yadd yscale y h cs ks in
  v_vx (fst y') = v_vx (fst y) + c_acc u * (h * sum cs) /\ v_delta (fst y') = v_delta (fst y) + c_ddelta u * (h * sum cs) /\ snd y' = snd y.
Proof.
  unfold rk_comb. induction cs as [|c cs IH]; intros ks y F Hl; cbn [combine fold_left sum fold_right]. { split; [ring|]. split; [ring|reflexivity]. }
  destruct ks as [|k ks]; cbn in Hl; [lia|]. apply Forall_inv in F as K. apply Forall_inv_tail in F. destruct K as (K1 & K2 & K3). cbn [combine fold_left fst snd].
  destruct (IH ks (yadd y (yscale (h * c) k)) F ltac:(lia)) as (I1 & I2 & I3). cbv zeta. rewrite I1, I2, I3. fold (sum cs). unfold yadd, yscale. cbn [fst snd vst_add vst_scale v_vx v_delta].
  rewrite K1, K2, K3. split; [ring|]. split; [ring|]. destruct y as [x [ya yd]]. unfold vcm_add, vcm_scale. cbn [snd c_acc c_ddelta]. f_equal; ring.
Qed.

Lemma between a s h lo hi v : 0 <= s -> s <= h -> inside v lo hi -> inside (v + a * h) lo hi -> inside (v + a * s) lo hi.
Proof. unfold inside. intros Hs Hh H0 H1. destruct (Rle_dec 0 a). - assert (0 <= a * s) by nra. assert (a * s <= a * h) by nra. lra. - assert (a * s <= 0) by nra. assert (a * h <= a * s) by nra. lra. Qed.

Lemma stages_same h y : 0 <= h -> snd y = u -> unlimited p (fst y) u h -> forall rows ks, Forall straight ks ->
  (forall j r, nth_error rows j = Some r -> (length r <= length ks + j)%nat /\ 0 <= sum r <= 1) ->
  exists ks', rk_stages yadd yscale fv y h rows ks = Some ks' /\ rk_stages yadd yscale fb y h rows ks = Some ks' /\ Forall straight ks' /\ length ks' = (length ks + length rows)%nat.
Proof.
  intros Hh Hu (U1 & U2 & U3 & U4 & U5 & U6). induction rows as [|r rs IH]; intros ks F Hr; cbn [rk_stages].
  { exists ks. repeat split; auto. }
  destruct (Hr O r eq_refl) as [Hl Hs]. rewrite Nat.add_0_r in Hl. destruct (comb_straight h r ks y F Hl) as (I1 & I2 & I3). set (z := rk_comb yadd yscale y h r ks) in *.
  assert (Hhs : 0 <= h * sum r <= h) by nra.
  assert (SR : vehicle_dynamics g p (fst z) (snd z) = bicycle_dynamics g (fst z) (snd z)).
  { rewrite I3, Hu. apply same_rates; try assumption; [rewrite I1|rewrite I2]; apply between with (h := h); try assumption; lra. }
  unfold fv at 1, fb at 1. rewrite SR.
  set (k := (bicycle_dynamics g (fst z) (snd z), vcm_scale 0 (snd z))).
  assert (Kk : straight k). { unfold straight, k, bicycle_dynamics, vcm_scale. cbn [fst snd v_vx v_delta]. rewrite I3, Hu. split; [reflexivity|]. split; [reflexivity|]. f_equal; ring. }
  destruct (IH (ks ++ [k])) as (ks' & E1 & E2 & E3 & E4).
  { apply Forall_app. split; [exact F|]. constructor; [exact Kk|constructor]. }
  { intros j q Hj. destruct (Hr (S j) q Hj) as [A B]. rewrite app_length. cbn [length]. split; [lia|exact B]. }
  exists ks'. rewrite E1, E2. split; [reflexivity|]. split; [reflexivity|]. split; [exact E3|]. rewrite E4, app_length. cbn [length]. lia.
Qed.

Lemma unlimited_next x x' h T : 0 <= h -> 0 <= T -> unlimited p x u (h + T) -> v_vx x' = v_vx x + c_acc u * h -> v_delta x' = v_delta x + c_ddelta u * h -> unlimited p x u h /\ unlimited p x' u T.
Proof.
  intros Hh HT (U1 & U2 & U3 & U4 & U5 & U6) E1 E2. unfold unlimited. rewrite E1, E2.
  replace (v_vx x + c_acc u * h + c_acc u * T) with (v_vx x + c_acc u * (h + T)) by ring. replace (v_delta x + c_ddelta u * h + c_ddelta u * T) with (v_delta x + c_ddelta u * (h + T)) by ring.
  assert (inside (v_vx x + c_acc u * h) (mp_vlo (vp_m p)) (mp_vhi (vp_m p))) by (apply between with (h := h + T); try assumption; lra).
  assert (inside (v_delta x + c_ddelta u * h) (- vp_dmax p) (vp_dmax p)) by (apply between with (h := h + T); try assumption; lra).
  repeat split; try assumption; apply U1 || apply U2 || apply H || apply H0 || apply U3 || apply U4 || apply U5 || apply U6.
Qed.

Lemma sum_nonneg l : Forall (fun h => 0 <= h) l -> 0 <= sum l.
Proof. induction 1; cbn; [lra|]. fold (sum l). lra. Qed.

Lemma solve_same tab : consistent tab -> forall hs y, Forall (fun h => 0 <= h) hs -> snd y = u -> unlimited p (fst y) u (sum hs) ->
  exists y', rk_solve yadd yscale fv tab y hs = Some y' /\ rk_solve yadd yscale fb tab y hs = Some y' /\
    v_vx (fst y') = v_vx (fst y) + c_acc u * sum hs /\ v_delta (fst y') = v_delta (fst y) + c_ddelta u * sum hs.
Proof.
  intros (C1 & C2 & C3). induction hs as [|h hs IH]; intros y F Hu HU; cbn [rk_solve sum fold_right].
  { exists y. split; [reflexivity|]. split; [reflexivity|]. split; ring. }
  apply Forall_inv in F as Hh. apply Forall_inv_tail in F. pose proof (sum_nonneg _ F) as Hs. cbn in HU. fold (sum hs) in HU |- *.
  destruct (unlimited_next _ (mkV 0 0 0 (v_vx (fst y) + c_acc u * h) (v_delta (fst y) + c_ddelta u * h)) _ _ Hh Hs HU eq_refl eq_refl) as [U1 _].
  unfold rk_step. destruct (stages_same h y Hh Hu U1 (fst tab) [] (Forall_nil _)) as (ks & E1 & E2 & E3 & E4).
  { intros j r Hj. cbn [length]. apply C1. exact Hj. }
  cbn [length plus] in E4. rewrite E1, E2. destruct (comb_straight h (snd tab) ks y E3 ltac:(lia)) as (I1 & I2 & I3). rewrite C3, Rmult_1_r in I1, I2.
  set (z := rk_comb yadd yscale y h (snd tab) ks) in *. destruct (unlimited_next _ (fst z) _ _ Hh Hs HU I1 I2) as [_ U2].
  destruct (IH z F ltac:(rewrite I3; exact Hu) U2) as (y' & Q1 & Q2 & Q3 & Q4). exists y'. split; [exact Q1|]. split; [exact Q2|]. rewrite Q3, Q4, I1, I2. split; ring.
Qed.
End Steps.
