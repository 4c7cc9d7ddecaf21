(* Generated from tools/Newton.src by tools/gen_props.py. *)
(** Properties of the forces, torques and masses of the models. *)
From Coq Require Import Reals Lra Psatz List Bool String.
From Verif Require Import Base R2 DataModel DynModel DynSpec DynProofs NewtonSpec NewtonProofs.
Import ListNotations.
Open Scope R_scope.

(** In the frame of the world the spacecraft obeys Newton's second law with two thrusters
    that push along the heading, and Euler's law with the thrusters mounted at the half
    width to the left and to the right, as long as the limit of the turning rate is not
    reached. *)
Lemma C128_spacecraft_pf : forall p lo hi w m Iz u x T, mp_alo p <= mp_ahi p -> 0 < m ->
  motion6 (fun t => spacecraft_dynamics p lo hi w m Iz (x t) (u t)) x T ->
  let Fl t := m * clip (mp_alo p) (mp_ahi p) (sc_l (u t)) in
  let Fr t := m * clip (mp_alo p) (mp_ahi p) (sc_r (u t)) in
  newton (fun t => pos6 (x t)) (fun t => vel6 (x t)) (fun _ => m) (fun t => vadd (vscale (Fl t) (dir (s_psi (x t)))) (vscale (Fr t) (dir (s_psi (x t))))) T /\
  evolves (fun t => s_psi (x t)) (fun t => s_dpsi (x t)) T /\
  forall t, 0 <= t < T -> lo < s_dpsi (x t) < hi -> right_deriv (fun t => s_dpsi (x t)) t ((torque (0, w) (Fl t, 0) + torque (0, - w) (Fr t, 0)) / Iz).
Proof.
  intros p lo hi w m Iz u x T Hp Hm (X & Y & P & VX & VY & W) Fl Fr.
  assert (A : newton (fun t => pos6 (x t)) (fun t => vel6 (x t)) (fun _ => m) (fun t => vadd (vscale (Fl t) (dir (s_psi (x t)))) (vscale (Fr t) (dir (s_psi (x t))))) T).
  { split.
    - split; [apply (evolves_ext _ _ _ _ T X)| apply (evolves_ext _ _ _ _ T Y)]; intros t; try reflexivity; intros _; unfold vel6, from_body, spacecraft_dynamics; cbn [s_x s_y fst snd]; ring.
    - eapply changes_ext; [exact (turning _ _ _ _ _ _ T P VX VY)| reflexivity|]. intros t Ht. unfold spacecraft_dynamics. cbn [s_psi s_vx s_vy s_dpsi]. rewrite !clip_acc by exact Hp.
      unfold from_body, vscale, vadd, dir, Fl, Fr. cbn [fst snd]. f_equal; field; lra. }
  split; [exact A|]. split; [exact P|].
  intros t Ht Hw. pose proof (proj2 W t Ht) as D. unfold spacecraft_dynamics in D. cbn [s_dpsi] in D. unfold apply_rot_speed_constraint in D.
  rewrite (proj2 (leb_false _ _) (proj1 Hw)), (proj2 (leb_false _ _) (proj2 Hw)) in D. cbn [andb orb] in D. rewrite !clip_acc in D by exact Hp.
  replace ((torque (0, w) (Fl t, 0) + torque (0, - w) (Fr t, 0)) / Iz) with (w * m / Iz * (clip (mp_alo p) (mp_ahi p) (sc_r (u t)) - clip (mp_alo p) (mp_ahi p) (sc_l (u t)))); [exact D|].
  unfold torque, Fl, Fr, Rdiv. cbn [fst snd]. ring.
Qed.

(** Without thrust it flies straight with constant velocity, however it turns. *)
Lemma C128_spacecraft_coasts_pf : forall p lo hi w m Iz u x T, mp_alo p <= 0 <= mp_ahi p -> 0 < m ->
  motion6 (fun t => spacecraft_dynamics p lo hi w m Iz (x t) (u t)) x T -> (forall t, 0 <= t < T -> u t = mkSC 0 0) ->
  forall t, 0 <= t <= T -> vel6 (x t) = vel6 (x 0) /\ pos6 (x t) = vadd (pos6 (x 0)) (vscale t (vel6 (x 0))) /\ s_dpsi (x t) = s_dpsi (x 0) /\ s_psi (x t) = s_psi (x 0) + s_dpsi (x 0) * t.
Proof.
  intros p lo hi w m Iz u x T Hp Hm M Z t Ht. destruct (C128_spacecraft_pf p lo hi w m Iz u x T ltac:(lra) Hm M) as ([[PX PY] [VX VY]] & P & _).
  destruct M as (_ & _ & _ & _ & _ & W).
  assert (C0 : clip (mp_alo p) (mp_ahi p) 0 = 0) by (unfold clip, Rmin, Rmax; repeat (destruct (Rle_dec _ _)); lra).
  assert (VV : forall s, 0 <= s <= T -> fst (vel6 (x s)) = fst (vel6 (x 0)) /\ snd (vel6 (x s)) = snd (vel6 (x 0))).
  { intros s Hs. split; [apply (ev_constant _ _ T VX)| apply (ev_constant _ _ T VY)]; try exact Hs; intros r Hr; rewrite (Z r Hr); cbn [sc_l sc_r]; rewrite C0; unfold vscale, vadd; cbn [fst snd]; ring. }
  assert (WW : forall s, 0 <= s <= T -> s_dpsi (x s) = s_dpsi (x 0)).
  { intros s Hs. apply (ev_constant _ _ T W); [|exact Hs]. intros r Hr. rewrite (Z r Hr). unfold spacecraft_dynamics. cbn [sc_l sc_r s_dpsi]. rewrite Rminus_diag_eq by reflexivity. rewrite Rmult_0_r.
    unfold apply_rot_speed_constraint. destruct (_ || _); reflexivity. }
  split; [destruct (VV t Ht) as [A B]; apply injective_projections; assumption|].
  split.
  - apply injective_projections; cbn [vadd vscale fst snd].
    + rewrite (ev_linear _ _ (fst (vel6 (x 0))) T PX (fun s Hs => proj1 (VV s ltac:(lra))) t Ht). cbn [pos6 fst]. ring.
    + rewrite (ev_linear _ _ (snd (vel6 (x 0))) T PY (fun s Hs => proj2 (VV s ltac:(lra))) t Ht). cbn [pos6 snd]. ring.
  - split; [exact (WW t Ht)|]. exact (ev_linear _ _ (s_dpsi (x 0)) T P (fun s Hs => WW s ltac:(lra)) t Ht).
Qed.

(** The spaceship: one thrust, turned by the angle of the nozzle, that attacks behind the
    centre, and a mass that decreases with the thrust. *)
Lemma C128_spaceship_pf : forall p Iz l u x T, rp_Flo p <= rp_Fhi p -> Iz <> 0 ->
  motion8 (fun t => spaceship_dynamics p Iz l (x t) (u t)) x T ->
  let F t := thrust_of p (r_m (x t)) (ss_thrust (u t)) in
  newton (fun t => pos8 (x t)) (fun t => vel8 (x t)) (fun t => r_m (x t)) (fun t => vscale (F t) (dir (r_psi (x t) + r_ang (x t)))) T /\
  evolves (fun t => r_psi (x t)) (fun t => r_dpsi (x t)) T /\
  evolves (fun t => r_dpsi (x t)) (fun t => torque (- l, 0) (vscale (F t) (dir (r_ang (x t)))) / Iz) T /\
  evolves (fun t => r_m (x t)) (fun t => - rp_CT p * F t) T.
Proof.
  intros p Iz l u x T Hp HI (X & Y & P & VX & VY & W & A & M) F.
  assert (E : forall t, spaceship_thrust p (x t) (u t) = F t).
  { intros t. unfold spaceship_thrust, F, thrust_of, leb. destruct (Rle_dec _ _); [reflexivity|]. apply clip_force, Hp. }
  assert (N : newton (fun t => pos8 (x t)) (fun t => vel8 (x t)) (fun t => r_m (x t)) (fun t => vscale (F t) (dir (r_psi (x t) + r_ang (x t)))) T).
  { split.
    - split; [apply (evolves_ext _ _ _ _ T X)| apply (evolves_ext _ _ _ _ T Y)]; intros t; try reflexivity; intros _; unfold vel8, from_body, spaceship_dynamics; cbn [r_x r_y fst snd]; ring.
    - eapply changes_ext; [exact (turning _ _ _ _ _ _ T P VX VY)| reflexivity|]. intros t Ht. unfold spaceship_dynamics. cbn [r_psi r_vx r_vy r_dpsi]. rewrite E.
      unfold from_body, vscale, dir. cbn [fst snd]. rewrite cos_plus, sin_plus. unfold Rdiv. f_equal; ring. }
  split; [exact N|]. split; [exact P|]. split.
  - apply (evolves_ext _ _ _ _ T W); intros t; [reflexivity|]. intros _. unfold spaceship_dynamics. cbn [r_dpsi]. rewrite E. unfold torque, vscale, dir. cbn [fst snd]. field. exact HI.
  - apply (evolves_ext _ _ _ _ T M); intros t; [reflexivity|]. intros _. unfold spaceship_dynamics. cbn [r_m]. rewrite E. reflexivity.
Qed.

(** The rocket: two thrusts at the distance l in front of the centre, turned by the angle
    of the nozzles from the directions across the heading; its velocities are those of
    the frame of the world. *)
Lemma C128_rocket_pf : forall p Iz l u x T, rp_Flo p <= rp_Fhi p -> Iz <> 0 ->
  motion8 (fun t => rocket_dynamics p Iz l (x t) (u t)) x T ->
  let Fl t := thrust_of p (r_m (x t)) (rc_l (u t)) in
  let Fr t := thrust_of p (r_m (x t)) (rc_r (u t)) in
  newton (fun t => pos8 (x t)) (fun t => world8 (x t)) (fun t => r_m (x t))
    (fun t => vadd (vscale (Fl t) (dir (r_psi (x t) + r_ang (x t) - PI / 2))) (vscale (Fr t) (dir (r_psi (x t) - r_ang (x t) + PI / 2)))) T /\
  evolves (fun t => r_psi (x t)) (fun t => r_dpsi (x t)) T /\
  evolves (fun t => r_dpsi (x t)) (fun t => (torque (l, 0) (vscale (Fl t) (dir (r_ang (x t) - PI / 2))) + torque (l, 0) (vscale (Fr t) (dir (- r_ang (x t) + PI / 2)))) / Iz) T /\
  evolves (fun t => r_m (x t)) (fun t => - rp_CT p * (Fl t + Fr t)) T.
Proof.
  intros p Iz l u x T Hp HI (X & Y & P & VX & VY & W & A & M) Fl Fr.
  assert (E : forall t, rocket_thrust p (x t) (u t) = (Fl t, Fr t)).
  { intros t. unfold rocket_thrust, Fl, Fr, thrust_of, leb. destruct (Rle_dec _ _); [reflexivity|]. rewrite !clip_force by exact Hp. reflexivity. }
  assert (C1 : forall a, cos (a - PI / 2) = sin a) by (intros a; rewrite cos_minus, cos_PI2, sin_PI2; ring).
  assert (S1 : forall a, sin (a - PI / 2) = - cos a) by (intros a; rewrite sin_minus, cos_PI2, sin_PI2; ring).
  assert (C2 : forall a, cos (a + PI / 2) = - sin a) by (intros a; rewrite cos_plus, cos_PI2, sin_PI2; ring).
  assert (S2 : forall a, sin (a + PI / 2) = cos a) by (intros a; rewrite sin_plus, cos_PI2, sin_PI2; ring).
  assert (N : newton (fun t => pos8 (x t)) (fun t => world8 (x t)) (fun t => r_m (x t))
    (fun t => vadd (vscale (Fl t) (dir (r_psi (x t) + r_ang (x t) - PI / 2))) (vscale (Fr t) (dir (r_psi (x t) - r_ang (x t) + PI / 2)))) T).
  { split.
    - split; [apply (evolves_ext _ _ _ _ T X)| apply (evolves_ext _ _ _ _ T Y)]; intros t; try reflexivity; intros _; unfold rocket_dynamics; rewrite E; reflexivity.
    - split; [apply (evolves_ext _ _ _ _ T VX)| apply (evolves_ext _ _ _ _ T VY)]; intros t; try reflexivity; intros _; unfold rocket_dynamics; rewrite E; cbn [r_vx r_vy]; unfold vscale, vadd, dir; cbn [fst snd].
      + rewrite C1, C2. replace (r_ang (x t) - r_psi (x t)) with (- (r_psi (x t) - r_ang (x t))) by ring. rewrite sin_neg. unfold Rdiv. ring.
      + rewrite S1, S2. replace (r_ang (x t) - r_psi (x t)) with (- (r_psi (x t) - r_ang (x t))) by ring. rewrite cos_neg. unfold Rdiv. ring. }
  split; [exact N|]. split; [apply (evolves_ext _ _ _ _ T P); intros t; [reflexivity|]; intros _; unfold rocket_dynamics; rewrite E; reflexivity|]. split.
  - apply (evolves_ext _ _ _ _ T W); intros t; [reflexivity|]. intros _. unfold rocket_dynamics. rewrite E. cbn [r_dpsi]. unfold torque, vscale, dir. cbn [fst snd]. rewrite C1, S1, C2, S2, cos_neg, sin_neg. field. exact HI.
  - apply (evolves_ext _ _ _ _ T M); intros t; [reflexivity|]. intros _. unfold rocket_dynamics. rewrite E. reflexivity.
Qed.

Lemma clip_pos lo hi a : 0 <= lo -> 0 <= clip lo hi a.
Proof. intros H. unfold clip. pose proof (Rmax_l lo (Rmin a hi)). lra. Qed.

Lemma thrust_pos p m F : 0 <= rp_Flo p -> 0 <= thrust_of p m F.
Proof. intros H. unfold thrust_of. destruct (Rle_dec _ _); [lra| apply clip_pos, H]. Qed.

(** The tank does not go below the empty mass, so that the masses in the following
    statements are positive. *)
Lemma mass_pos p m F T : 0 <= rp_CT p -> 0 < rp_mv p -> 0 < m 0 -> evolves m (fun t => - rp_CT p * F t) T -> (forall t, 0 <= t < T -> m t <= rp_mv p -> F t = 0) ->
  forall t, 0 <= t <= T -> Rmin (rp_mv p) (m 0) <= m t.
Proof.
  intros HC Hv H0 [C D] Z. apply (stays_above m T (Rmin (rp_mv p) (m 0)) C); [|apply Rmin_r]. intros t Ht. exists (- rp_CT p * F t). split; [apply D, Ht|].
  intros K. rewrite (Z t Ht); [lra|]. pose proof (Rmin_l (rp_mv p) (m 0)). lra.
Qed.

Lemma ln_mono a b : 0 < a -> a <= b -> ln a <= ln b.
Proof. intros H [K|K]; [left; apply ln_increasing; assumption| subst; lra]. Qed.

Lemma ln_ratio a b c CT : 0 < CT -> 0 < c -> c <= b -> b <= a -> ln (a / b) / CT <= ln (a / c) / CT.
Proof.
  intros HC Hc Hb K. unfold Rdiv at 1 3. apply Rmult_le_compat_r; [pose proof (Rinv_0_lt_compat CT HC); lra|].
  apply ln_mono; [apply Rdiv_lt_0_compat; lra|]. unfold Rdiv. apply Rmult_le_compat_l; [lra|]. apply Rinv_le_contravar; lra.
Qed.

Lemma mass_down m F CT T : 0 <= CT -> evolves m (fun t => - CT * F t) T -> (forall t, 0 <= t < T -> 0 <= F t) -> forall s t, 0 <= s <= t -> t <= T -> m t <= m s.
Proof.
  intros HC [C D] P s t Hs Ht. apply (decreasing m T C s t); try lra. intros r Hr. exists (- CT * F r). split; [apply D; lra|]. pose proof (P r ltac:(lra)). nra.
Qed.

(** The budget of a rocket: whatever it is commanded, its velocity between two moments
    changes at most by the logarithm of the ratio of the masses over the consumption
    constant, and altogether at most by that of the full and the empty mass. *)
Lemma C128_rocket_budget_pf : forall p Iz l u x T, 0 <= rp_Flo p <= rp_Fhi p -> 0 < rp_CT p -> 0 < rp_mv p -> Iz <> 0 -> rp_mv p <= r_m (x 0) ->
  motion8 (fun t => rocket_dynamics p Iz l (x t) (u t)) x T ->
  forall s t, 0 <= s <= t -> t <= T ->
  vdist (world8 (x t)) (world8 (x s)) <= ln (r_m (x s) / r_m (x t)) / rp_CT p /\ vdist (world8 (x t)) (world8 (x s)) <= ln (r_m (x 0) / rp_mv p) / rp_CT p.
Proof.
  intros p Iz l u x T HF HC Hv HI H0 M s t Hs Ht. destruct (C128_rocket_pf p Iz l u x T (proj2 HF) HI M) as ((_ & V) & _ & _ & MM).
  assert (P1 : forall r, 0 <= r < T -> 0 <= thrust_of p (r_m (x r)) (rc_l (u r)) /\ 0 <= thrust_of p (r_m (x r)) (rc_r (u r))) by (intros r _; split; apply thrust_pos, HF).
  assert (Lo : forall r, 0 <= r <= T -> rp_mv p <= r_m (x r)).
  { intros r Hr. pose proof (mass_pos p (fun t => r_m (x t)) _ T ltac:(lra) Hv ltac:(lra) MM) as Q. cbv beta in Q. rewrite <- (Rmin_left (rp_mv p) (r_m (x 0)) H0). apply Q; [|exact Hr].
    intros q _ K. unfold thrust_of. destruct (Rle_dec _ _); [ring| contradiction]. }
  assert (Dn : forall a b, 0 <= a <= b -> b <= T -> r_m (x b) <= r_m (x a)).
  { apply (mass_down (fun t => r_m (x t)) (fun t => thrust_of p (r_m (x t)) (rc_l (u t)) + thrust_of p (r_m (x t)) (rc_r (u t))) (rp_CT p) T ltac:(lra) MM). intros r Hr. destruct (P1 r Hr). lra. }
  pose proof (delta_v _ _ _ _ _ _ (rp_CT p) T HC (fun r Hr => Rlt_le_trans _ _ _ Hv (Lo r Hr)) P1 V MM s t Hs Ht) as B.
  split; [exact B|]. eapply Rle_trans; [exact B|]. eapply Rle_trans; [apply (ln_ratio _ _ (rp_mv p) _ HC Hv (Lo t ltac:(lra)) (Dn s t Hs Ht))|].
  unfold Rdiv at 1 3. apply Rmult_le_compat_r; [pose proof (Rinv_0_lt_compat _ HC); lra|]. pose proof (Lo s ltac:(lra)). apply ln_mono; [apply Rdiv_lt_0_compat; lra|].
  unfold Rdiv. apply Rmult_le_compat_r; [pose proof (Rinv_0_lt_compat _ Hv); lra|]. apply Dn; lra.
Qed.

(** The same for spaceships that cannot push backwards. *)
Lemma C128_spaceship_budget_forward_pf : forall p Iz l u x T, 0 <= rp_Flo p <= rp_Fhi p -> 0 < rp_CT p -> 0 < rp_mv p -> Iz <> 0 -> rp_mv p <= r_m (x 0) ->
  motion8 (fun t => spaceship_dynamics p Iz l (x t) (u t)) x T ->
  forall s t, 0 <= s <= t -> t <= T ->
  vdist (vel8 (x t)) (vel8 (x s)) <= ln (r_m (x s) / r_m (x t)) / rp_CT p /\ vdist (vel8 (x t)) (vel8 (x s)) <= ln (r_m (x 0) / rp_mv p) / rp_CT p.
Proof.
  intros p Iz l u x T HF HC Hv HI H0 M s t Hs Ht. destruct (C128_spaceship_pf p Iz l u x T (proj2 HF) HI M) as ((_ & V) & _ & _ & MM).
  assert (P1 : forall r, 0 <= r < T -> 0 <= thrust_of p (r_m (x r)) (ss_thrust (u r)) /\ 0 <= 0) by (intros r _; split; [apply thrust_pos, HF| lra]).
  assert (Lo : forall r, 0 <= r <= T -> rp_mv p <= r_m (x r)).
  { intros r Hr. pose proof (mass_pos p (fun t => r_m (x t)) _ T ltac:(lra) Hv ltac:(lra) MM) as Q. cbv beta in Q. rewrite <- (Rmin_left (rp_mv p) (r_m (x 0)) H0). apply Q; [|exact Hr].
    intros q _ K. unfold thrust_of. destruct (Rle_dec _ _); [ring| contradiction]. }
  assert (Dn : forall a b, 0 <= a <= b -> b <= T -> r_m (x b) <= r_m (x a)).
  { apply (mass_down (fun t => r_m (x t)) (fun t => thrust_of p (r_m (x t)) (ss_thrust (u t))) (rp_CT p) T ltac:(lra) MM). intros r Hr. destruct (P1 r Hr). lra. }
  assert (V' : changes (fun t => vel8 (x t)) (fun t => vscale (/ r_m (x t)) (vadd (vscale (thrust_of p (r_m (x t)) (ss_thrust (u t))) (dir (r_psi (x t) + r_ang (x t)))) (vscale 0 (dir 0)))) T).
  { eapply changes_ext; [exact V| reflexivity|]. intros r _. unfold vscale, vadd. cbn [fst snd]. f_equal; ring. }
  assert (MM' : evolves (fun t => r_m (x t)) (fun t => - rp_CT p * (thrust_of p (r_m (x t)) (ss_thrust (u t)) + 0)) T).
  { apply (evolves_ext _ _ _ _ T MM); intros r; [reflexivity|]. intros _. ring. }
  pose proof (delta_v _ _ _ (fun _ => 0) _ (fun _ => 0) (rp_CT p) T HC (fun r Hr => Rlt_le_trans _ _ _ Hv (Lo r Hr)) P1 V' MM' s t Hs Ht) as B.
  split; [exact B|]. eapply Rle_trans; [exact B|]. eapply Rle_trans; [apply (ln_ratio _ _ (rp_mv p) _ HC Hv (Lo t ltac:(lra)) (Dn s t Hs Ht))|].
  unfold Rdiv at 1 3. apply Rmult_le_compat_r; [pose proof (Rinv_0_lt_compat _ HC); lra|]. pose proof (Lo s ltac:(lra)). apply ln_mono; [apply Rdiv_lt_0_compat; lra|].
  unfold Rdiv. apply Rmult_le_compat_r; [pose proof (Rinv_0_lt_compat _ Hv); lra|]. apply Dn; lra.
Qed.

(** The default spaceship can: in reverse it gains mass, and any velocity can be
    reached. *)
Lemma C128_spaceship_budget_refuted_pf : forall B, exists x T, 0 <= T /\ motion8 (fun t => spaceship_dynamics sp_default 1 1 (x t) (mkSSC (-2) 0)) x T /\ r_m (x 0) = 3 /\ r_ang (x T) = 0 /\
  B < vdist (vel8 (x T)) (vel8 (x 0)).
Proof.
  intros B. set (b := Rabs B + 1).
  set (m := fun t : R => 3 + 1 / 50 * t). set (v := fun t => - 100 * ln (m t) + 100 * ln 3).
  set (q := fun t => - 100 * (50 * (m t * ln (m t)) + (0 + - (ln 3 + 1) * t))).
  set (x := fun t => mk8 (q t) 0 0 (v t) 0 0 0 (m t)). set (T := 150 * (exp (b / 100) - 1)).
  assert (Hb : 0 < b) by (unfold b; pose proof (Rabs_pos B); lra).
  assert (He : 1 < exp (b / 100)) by (rewrite <- exp_0; apply exp_increasing; lra).
  assert (HT : 0 <= T) by (unfold T; lra).
  assert (Hm : forall t, 0 <= t <= T -> 0 < m t) by (intros t Ht; unfold m; lra).
  assert (F0 : forall t, 0 <= t < T -> spaceship_thrust sp_default (x t) (mkSSC (-2) 0) = -2).
  { intros t Ht. unfold spaceship_thrust, x, leb. cbn [r_m ss_thrust rp_mv sp_default rp_Flo rp_Fhi]. destruct (Rle_dec (m t) 2) as [K|K]; [unfold m in K; lra|].
    unfold apply_force_limits, ltb. destruct (Rlt_dec (-2) (-2)); [lra|]. cbn [andb negb]. rewrite Rmin_left by lra. rewrite Rmax_left by lra. reflexivity. }
  assert (Z : apply_full_ang_vel_limits 0 0 (rp_lo sp_default) (rp_hi sp_default) (rp_dlo sp_default) (rp_dhi sp_default) = 0).
  { pose proof PI_RGT_0. unfold apply_full_ang_vel_limits, apply_ang_constraint, apply_ang_vel_limits, sp_default. cbn [rp_lo rp_hi rp_dlo rp_dhi]. cmp. }
  assert (EM : evolves m (fun _ => 1 / 50) T) by apply evolves_affine.
  pose proof (ev_ln m _ T EM Hm) as EL.
  exists x, T. split; [exact HT|]. split; [|split; [unfold x, m; cbn [r_m]; ring| split; [reflexivity|]]].
  - unfold motion8, spaceship_dynamics. cbn [r_x r_y r_psi r_vx r_vy r_dpsi r_ang r_m]. unfold x at 1 4 7 10 15 20 23 26. cbn [r_x r_y r_psi r_vx r_vy r_dpsi r_ang r_m].
    repeat match goal with |- _ /\ _ => split end.
    + apply (evolves_ext _ _ _ _ T (ev_scale (-100) _ _ T (ev_plus _ _ _ _ T (ev_scale 50 _ _ T (ev_mult _ _ _ _ T EM EL)) (evolves_affine 0 (- (ln 3 + 1)) T)))); intros t; [reflexivity|].
      intros Ht. unfold x. cbn [r_psi r_vx r_vy]. rewrite cos_0, sin_0. pose proof (Hm t ltac:(lra)). unfold v. field. lra.
    + apply (evolves_ext _ _ _ _ T (evolves_const 0 T)); intros t; [reflexivity|]. intros _. unfold x. cbn [r_psi r_vx r_vy]. rewrite sin_0. ring.
    + apply (evolves_ext _ _ _ _ T (evolves_const 0 T)); intros t; reflexivity.
    + apply (evolves_ext _ _ _ _ T (ev_plus _ _ _ _ T (ev_scale (-100) _ _ T EL) (evolves_const (100 * ln 3) T))); intros t; [reflexivity|].
      intros Ht. rewrite (F0 t Ht). unfold x. cbn [r_ang r_vy r_dpsi r_m]. rewrite cos_0. pose proof (Hm t ltac:(lra)). field. lra.
    + apply (evolves_ext _ _ _ _ T (evolves_const 0 T)); intros t; [reflexivity|]. intros Ht. rewrite (F0 t Ht). unfold x. cbn [r_ang r_vx r_dpsi r_m]. rewrite sin_0. ring.
    + apply (evolves_ext _ _ _ _ T (evolves_const 0 T)); intros t; [reflexivity|]. intros Ht. unfold x at 1. cbn [r_ang]. rewrite sin_0. ring.
    + apply (evolves_ext _ _ _ _ T (evolves_const 0 T)); intros t; [reflexivity|]. intros Ht. unfold x. cbn [r_ang ss_ddelta]. rewrite Z. reflexivity.
    + apply (evolves_ext _ _ _ _ T EM); intros t; [reflexivity|]. intros Ht. rewrite (F0 t Ht). unfold sp_default. cbn [rp_CT]. lra.
  - assert (V0 : v 0 = 0) by (unfold v, m; rewrite Rmult_0_r, Rplus_0_r; ring).
    assert (VT : v T = - b).
    { unfold v, m, T. replace (3 + 1 / 50 * (150 * (exp (b / 100) - 1))) with (3 * exp (b / 100)) by field. rewrite ln_mult by (try apply exp_pos; lra). rewrite ln_exp. field. }
    unfold vdist, vel8, from_body, x. cbn [r_psi r_vx r_vy fst snd]. rewrite V0, VT, cos_0, sin_0. unfold vsub. cbn [fst snd].
    replace (1 * - b - 0 * 0 - (1 * 0 - 0 * 0), 0 * - b + 1 * 0 - (0 * 0 + 1 * 0)) with (vscale b (-1, 0)) by (unfold vscale; cbn [fst snd]; f_equal; ring).
    rewrite vnorm_scale. unfold vnorm, vdot. cbn [fst snd]. replace (-1 * -1 + 0 * 0) with 1 by ring. rewrite sqrt_1. rewrite (Rabs_right b) by lra. unfold b. pose proof (Rle_abs B). lra.
Qed.

(** The moving obstacle obeys Newton's law with its commands as forces along and across
    the heading while no limit is reached... *)
Lemma C128_obstacle_within_limits_pf : forall p lo hi u x T m, 0 < m -> motion6 (fun t => obstacle_dynamics p lo hi (x t) (u t)) x T ->
  (forall t, 0 <= t < T -> mp_vlo p < s_vx (x t) < mp_vhi p /\ mp_vlo p < s_vy (x t) < mp_vhi p /\
    within (oc_x (u t) + s_dpsi (x t) * s_vy (x t)) (mp_alo p) (mp_ahi p) /\ within (oc_y (u t) - s_dpsi (x t) * s_vx (x t)) (mp_alo p) (mp_ahi p)) ->
  newton (fun t => pos6 (x t)) (fun t => vel6 (x t)) (fun _ => m) (fun t => from_body (s_psi (x t)) (m * oc_x (u t), m * oc_y (u t))) T.
Proof.
  intros p lo hi u x T m Hm (X & Y & P & VX & VY & W) H.
  assert (E : forall v a, mp_vlo p < v < mp_vhi p -> within a (mp_alo p) (mp_ahi p) -> apply_full_acceleration_limits v a p = a).
  { intros v a Hv Ha. unfold within, apply_full_acceleration_limits, apply_speed_constraint, apply_acceleration_limits in *. cmp. }
  split.
  - split; [apply (evolves_ext _ _ _ _ T X)| apply (evolves_ext _ _ _ _ T Y)]; intros t; try reflexivity; intros _; unfold vel6, from_body, obstacle_dynamics; cbn [s_x s_y fst snd]; ring.
  - eapply changes_ext; [exact (turning _ _ _ _ _ _ T P VX VY)| reflexivity|]. intros t Ht. destruct (H t Ht) as (A1 & A2 & A3 & A4). unfold obstacle_dynamics. cbn [s_psi s_vx s_vy s_dpsi].
    rewrite (E _ _ A1 A3), (E _ _ A2 A4). unfold from_body, vscale. cbn [fst snd]. f_equal; field; lra.
Qed.

(** ... but the limits are applied to the apparent forces of the turning frame as well:
    an obstacle that turns becomes faster without any command. *)
Lemma C128_obstacle_refuted_pf : exists p lo hi x, mparams_ok p /\ mp_alo p <= 0 <= mp_ahi p /\ motion6 (fun t => obstacle_dynamics p lo hi (x t) (mkOC 0 0 0)) x 1 /\
  (forall t, 0 <= t <= 1 -> mp_vlo p < s_vx (x t) < mp_vhi p /\ mp_vlo p < s_vy (x t) < mp_vhi p /\ lo < s_dpsi (x t) < hi) /\ vnorm (vel6 (x 0)) < vnorm (vel6 (x 1)).
Proof.
  set (x := fun t => mk6 ((11 + 1 * t) * sin (0 + 1 * t) + (11 + (-1) * t) * cos (0 + 1 * t)) (- ((11 + 1 * t) * cos (0 + 1 * t)) + (11 + (-1) * t) * sin (0 + 1 * t)) (0 + 1 * t) (10 + 1 * t) (10 + (-1) * t) 1).
  exists (mkMP (-100) 100 (-1) 1), (-2), 2, x. split; [unfold mparams_ok; cbn; lra|]. split; [cbn; lra|]. split; [|split].
  - assert (A : forall a b, evolves (fun t => a + b * t) (fun _ => b) 1) by (intros; apply evolves_affine).
    unfold motion6, obstacle_dynamics, x. cbn [s_x s_y s_psi s_vx s_vy s_dpsi oc_x oc_y oc_psi]. repeat match goal with |- _ /\ _ => split end.
    + apply (evolves_ext _ _ _ _ 1 (ev_plus _ _ _ _ 1 (ev_mult _ _ _ _ 1 (A 11 1) (ev_sin _ _ 1 (A 0 1))) (ev_mult _ _ _ _ 1 (A 11 (-1)) (ev_cos _ _ 1 (A 0 1))))); intros t; [reflexivity|]. intros _. cbv beta. ring.
    + apply (evolves_ext _ _ _ _ 1 (ev_plus _ _ _ _ 1 (ev_opp _ _ 1 (ev_mult _ _ _ _ 1 (A 11 1) (ev_cos _ _ 1 (A 0 1)))) (ev_mult _ _ _ _ 1 (A 11 (-1)) (ev_sin _ _ 1 (A 0 1))))); intros t; [reflexivity|]. intros _. cbv beta. ring.
    + apply (evolves_ext _ _ _ _ 1 (A 0 1)); intros t; reflexivity.
    + apply (evolves_ext _ _ _ _ 1 (A 10 1)); intros t; [reflexivity|]. intros Ht. unfold apply_full_acceleration_limits, apply_speed_constraint, apply_acceleration_limits. cbn [mp_vlo mp_vhi mp_alo mp_ahi]. cmp.
    + apply (evolves_ext _ _ _ _ 1 (A 10 (-1))); intros t; [reflexivity|]. intros Ht. unfold apply_full_acceleration_limits, apply_speed_constraint, apply_acceleration_limits. cbn [mp_vlo mp_vhi mp_alo mp_ahi]. cmp.
    + apply (evolves_ext _ _ _ _ 1 (evolves_const 1 1)); intros t; [reflexivity|]. intros Ht. unfold apply_rot_speed_constraint. cmp.
  - intros t Ht. unfold x. cbn. lra.
  - unfold vnorm. apply sqrt_lt_1_alt. split; [apply vdot_self_nonneg|]. unfold vdot, vel6, from_body, x. cbn [s_psi s_vx s_vy fst snd].
    replace (0 + 1 * 0) with 0 by ring. replace (0 + 1 * 1) with 1 by ring. rewrite cos_0, sin_0. pose proof (sin2_cos2 1) as S. unfold Rsqr in S. nra.
Qed.

(** The dynamic vehicle: in the frame of the world, above the speed at which the
    kinematic model is used, the mass times the acceleration is the sum of the force at
    the front tyre, turned by the steering angle, the force at the rear tyre and the
    drag; the torque is that of the two tyre forces at the axles.  After a collision a
    friction proportional to the velocity at the beginning of the update is added. *)
Lemma C128_vehicle_pf : forall g p pf pr collided self u x dx T, vg_m g <> 0 -> vg_Iz g <> 0 -> dyn_motion g p pf pr collided self u x dx T -> (forall t, 0 <= t < T -> 1 / 10 <= d_vx (x t)) ->
  exists F1 F2 : R -> vec, (forall t, 0 <= t < T -> wheel_forces g p pf pr (x t) (u t) = Some (F1 t, F2 t)) /\
  let mu := if collided then if two_wheels (vg_type g) then 3 else 1 else 0 in
  let drag t : vec := (- (1 / 2) * rho ^ 2 * vg_c_drag g * vg_a_drag g * d_vx (x t), 0) in
  changes (fun t => posd (x t)) (fun t => veld (x t)) T /\
  changes (fun t => veld (x t)) (fun t => vadd (vscale (/ vg_m g) (from_body (d_psi (x t)) (vadd (from_body (d_delta (x t)) (F1 t)) (vadd (F2 t) (drag t))))) (from_body (d_psi (x t)) (vscale (- mu) (d_vx self, d_vy self)))) T /\
  evolves (fun t => d_psi (x t)) (fun t => d_dpsi (x t)) T /\
  evolves (fun t => d_dpsi (x t)) (fun t => (torque (vg_lf g, 0) (from_body (d_delta (x t)) (F1 t)) + torque (- vg_lr g, 0) (F2 t)) / vg_Iz g - mu * d_dpsi self) T.
Proof.
  intros g p pf pr collided self u x dx T Hm HI (E & X & Y & P & VX & VY & W & _) Hv.
  set (F := fun t => match wheel_forces g p pf pr (x t) (u t) with Some q => q | None => ((0, 0), (0, 0)) end).
  exists (fun t => fst (F t)), (fun t => snd (F t)).
  assert (K : forall t, 0 <= t < T -> wheel_forces g p pf pr (x t) (u t) = Some (fst (F t), snd (F t)) /\
    dx t = let F1 := from_body (d_delta (x t)) (fst (F t)) in let mu := if collided then if two_wheels (vg_type g) then 3 else 1 else 0 in
      mkD (d_vx (x t) * cos (d_psi (x t)) - d_vy (x t) * sin (d_psi (x t))) (d_vx (x t) * sin (d_psi (x t)) + d_vy (x t) * cos (d_psi (x t))) (d_dpsi (x t))
        ((fst F1 + (- (1 / 2) * d_vx (x t) * vg_a_drag g * vg_c_drag g * rho ^ 2) + fst (snd (F t))) / vg_m g + d_dpsi (x t) * d_vy (x t) + - mu * d_vx self)
        ((snd F1 + snd (snd (F t))) / vg_m g - d_dpsi (x t) * d_vx (x t) + - mu * d_vy self)
        ((snd F1 * vg_lf g - snd (snd (F t)) * vg_lr g) / vg_Iz g + - mu * d_dpsi self) (d_delta (dx t))).
  { intros t Ht. pose proof (E t Ht) as Q. unfold vehicle_dyn_dynamics in Q.
    assert (FR : vehicle_friction (vg_type g) collided self = (- (if collided then if two_wheels (vg_type g) then 3 else 1 else 0) * d_vx self, - (if collided then if two_wheels (vg_type g) then 3 else 1 else 0) * d_vy self, - (if collided then if two_wheels (vg_type g) then 3 else 1 else 0) * d_dpsi self)).
    { unfold vehicle_friction. destruct collided; [reflexivity|]. rewrite !Ropp_0, !Rmult_0_l. reflexivity. }
    rewrite FR in Q. rewrite (proj2 (ltb_false _ _) (Hv t Ht)) in Q.
    unfold F. destruct (wheel_forces g p pf pr (x t) (u t)) as [[Fw1 [a b]]|]; [|discriminate]. split; [reflexivity|]. cbn [fst snd].
    apply (f_equal (fun o => match o with Some z => z | None => dx t end)) in Q. cbv beta iota in Q. cbv zeta. rewrite <- Q. cbn [d_delta]. reflexivity. }
  split; [intros t Ht; exact (proj1 (K t Ht))|]. intros mu drag.
  assert (PV : changes (fun t => posd (x t)) (fun t => veld (x t)) T).
  { split; [apply (evolves_ext _ _ _ _ T X)| apply (evolves_ext _ _ _ _ T Y)]; intros t; try reflexivity; intros Ht; cbv beta; rewrite (proj2 (K t Ht)); unfold veld, from_body; cbn [d_x d_y fst snd]; ring. }
  assert (PP : evolves (fun t => d_psi (x t)) (fun t => d_dpsi (x t)) T).
  { apply (evolves_ext _ _ _ _ T P); intros t; [reflexivity|]. intros Ht. cbv beta. rewrite (proj2 (K t Ht)). reflexivity. }
  split; [exact PV|]. split; [|split; [exact PP|]].
  - eapply changes_ext; [exact (turning _ _ _ _ _ _ T PP VX VY)| reflexivity|]. intros t Ht. cbv beta. rewrite (proj2 (K t Ht)). cbv zeta. cbn [d_vx d_vy]. fold mu. unfold drag.
    destruct (F t) as [F1 F2]. unfold from_body, vadd, vscale. cbn [fst snd]. f_equal; field; exact Hm.
  - apply (evolves_ext _ _ _ _ T W); intros t; [reflexivity|]. intros Ht. cbv beta. rewrite (proj2 (K t Ht)). cbv zeta. cbn [d_dpsi]. fold mu. unfold torque. cbn [fst snd]. field. exact HI.
Qed.

(** The drag is proportional to the speed and to the square of the density... *)
Lemma C128_drag_pf : forall g p pf pr x u F, vg_m g <> 0 -> 1 / 10 <= d_vx x -> wheel_forces g p pf pr x u = Some F -> drag_is g p pf pr x u (- (1 / 2) * rho ^ 2 * vg_c_drag g * vg_a_drag g * d_vx x).
Proof.
  intros g p pf pr x u F Hm Hv HF. assert (HF' : wheel_forces (no_area g) p pf pr x u = Some F) by exact HF.
  unfold drag_is, vehicle_dyn_dynamics. rewrite (proj2 (ltb_false _ _) Hv), HF, HF'. destruct F as [F1 [a b]]. unfold vehicle_friction. do 2 eexists. split; [reflexivity|]. split; [reflexivity|].
  cbn [d_vx]. unfold no_area. cbn [vg_m vg_a_drag vg_c_drag]. field. exact Hm.
Qed.

Lemma straight_forces g p pf pr v a : vg_type g = CAR -> 0 < v -> apply_full_acceleration_limits v a (vp_m p) = a -> 0 < a -> 0 < vg_m g -> pac_D pf <> 0 -> pac_D pr <> 0 -> fst (normal_forces g a) <> 0 -> snd (normal_forces g a) <> 0 ->
  forall x y psi, wheel_forces g p pf pr (mkD x y psi v 0 0 0) (mkVCm a 0) =
    Some ((vg_m g * a * (1 / 2) + vg_c_rr_f g * fst (normal_forces g a), 0), (vg_m g * a * (1 / 2) + vg_c_rr_r g * snd (normal_forces g a), 0)).
Proof.
  intros Ht Hv Ha Ha0 Hm Df Dr N1 N2 x y psi. unfold wheel_forces. cbn [d_vx d_vy d_dpsi d_delta c_acc]. rewrite Ha.
  assert (PE : forall t, pac_evaluate t 0 = 0).
  { intros [B C D|B C D E]; cbn [pac_evaluate]; rewrite Rmult_0_r, atan_0; [|replace (0 - E * (0 - E * 0)) with 0 by ring; rewrite atan_0]; rewrite Rmult_0_r, sin_0; ring. }
  assert (R0 : rot (- 0) (v, 0 + vg_lf g * 0) = (v, 0)).
  { unfold rot. cbn [fst snd]. rewrite Ropp_0, cos_0, sin_0. f_equal; ring. }
  rewrite R0. cbn [fst snd].
  assert (AT : forall z, z = 0 -> np_atan_div z v = Some 0).
  { intros z ->. unfold np_atan_div. destruct (Req_EM_T v 0); [lra|]. unfold Rdiv. rewrite Rmult_0_l, atan_0. reflexivity. }
  rewrite (AT 0 eq_refl), (AT (0 - vg_lr g * 0)) by ring. rewrite !PE.
  destruct (normal_forces g a) as [n1 n2]. cbn [fst snd] in *.
  assert (SA : forall n D, n <> 0 -> D <> 0 -> saturation (0 * n) n D = Some 1).
  { intros n D Hn HD. unfold saturation. destruct (Req_EM_T (n * D) 0) as [K|K]; [apply Rmult_integral in K; tauto|].
    replace (1 - (0 * n / (n * D)) ^ 2) with 1 by (field; tauto). cbv zeta. rewrite (proj2 (ltb_false 1 0)) by lra. rewrite sqrt_1. reflexivity. }
  assert (SP : acceleration_split (vg_type g) (vg_m g * a) = (vg_m g * a * (1 / 2), vg_m g * a * (1 / 2))).
  { unfold acceleration_split. rewrite Ht. cbn [two_wheels]. rewrite (proj2 (leb_false (vg_m g * a) 0)); [reflexivity| nra]. }
  rewrite SP, !SA by assumption. rewrite !Rmult_0_l, !Rmult_1_r. reflexivity.
Qed.

(** The default car at a speed, with the acceleration that keeps it. *)
Definition keep (v : R) : R := 3 / 1000 * G + 1 / 2 * rho ^ 2 * (3756 / 10000) * 2 * v / 1300.

Lemma keep_range v : 0 < v <= 30 -> 0 < keep v < 1.
Proof. intros H. unfold keep, G, rho. lra. Qed.

Lemma car_forces v x y psi : 1 / 10 <= v <= 30 -> wheel_forces vg_car vp_rcar (default_car_front false) (default_car_rear false) (mkD x y psi v 0 0 0) (mkVCm (keep v) 0) =
  Some ((1300 * keep v * (1 / 2) + 3 / 1000 * fst (normal_forces vg_car (keep v)), 0), (1300 * keep v * (1 / 2) + 3 / 1000 * snd (normal_forces vg_car (keep v)), 0)).
Proof.
  intros Hv. pose proof (keep_range v ltac:(lra)) as K. apply (straight_forces vg_car vp_rcar).
  - reflexivity.
  - lra.
  - unfold vp_rcar. cbn [vp_m]. unfold apply_full_acceleration_limits, apply_speed_constraint, apply_acceleration_limits. cbn [mp_vlo mp_vhi mp_alo mp_ahi]. cmp.
  - lra.
  - cbn. lra.
  - cbn. lra.
  - cbn. lra.
  - unfold normal_forces, vg_wheelbase, vg_car, G. cbn [fst vg_m vg_h vg_lr vg_lf]. lra.
  - unfold normal_forces, vg_wheelbase, vg_car, G. cbn [snd vg_m vg_h vg_lr vg_lf]. lra.
Qed.

(** ... so that it is not the resistance of the air, which grows with the square of the
    speed: at twice the speed the default car has twice the drag. *)
Lemma C128_drag_refuted_pf : exists g p pf pr x1 u1 x2 u2 F1 F2, d_vx x2 = 2 * d_vx x1 /\ drag_is g p pf pr x1 u1 F1 /\ drag_is g p pf pr x2 u2 F2 /\ F1 < 0 /\ F2 = 2 * F1.
Proof.
  exists vg_car, vp_rcar, (default_car_front false), (default_car_rear false), (mkD 0 0 0 10 0 0 0), (mkVCm (keep 10) 0), (mkD 0 0 0 20 0 0 0), (mkVCm (keep 20) 0). do 2 eexists.
  split; [cbn; lra|]. split; [eapply C128_drag_pf; [cbn; lra| cbn; lra| apply car_forces; lra]|]. split; [eapply C128_drag_pf; [cbn; lra| cbn; lra| apply car_forces; lra]|].
  cbn [vg_car vg_c_drag vg_a_drag d_vx]. unfold rho. split; lra.
Qed.

(** After a collision the commands have no part in it, but the model brakes: friction
    proportional to the velocities it had when the update began. *)
Lemma C128_vehicle_friction_pf : forall g p pf pr self x u b, vehicle_dyn_dynamics g p pf pr false self x u = Some b ->
  let mu := if two_wheels (vg_type g) then 3 else 1 in
  vehicle_dyn_dynamics g p pf pr true self x u = Some (mkD (d_x b) (d_y b) (d_psi b) (d_vx b - mu * d_vx self) (d_vy b - mu * d_vy self) (d_dpsi b - mu * d_dpsi self) (d_delta b)).
Proof.
  intros g p pf pr self x u b H mu. unfold vehicle_dyn_dynamics, vehicle_friction in *. fold mu. destruct (ltb (d_vx x) (1 / 10)).
  - apply (f_equal (fun o => match o with Some z => z | None => b end)) in H. cbv beta iota in H. rewrite <- H. cbn [d_x d_y d_psi d_vx d_vy d_dpsi d_delta]. f_equal. f_equal; ring.
  - destruct (wheel_forces g p pf pr x u) as [[Fw1 [c d]]|]; [|discriminate].
    apply (f_equal (fun o => match o with Some z => z | None => b end)) in H. cbv beta iota in H. rewrite <- H. cbn [d_x d_y d_psi d_vx d_vy d_dpsi d_delta]. f_equal. f_equal; ring.
Qed.

Lemma C128_pedestrian_friction_pf : forall p self x u, let b := pedestrian_dynamics p false self x u in
  pedestrian_dynamics p true self x u = mk6 (s_x b) (s_y b) (s_psi b) (s_vx b - 2 * s_vx self) (s_vy b - 2 * s_vy self) (s_dpsi b - 2 * s_dpsi self).
Proof. intros p self x u b. unfold b, pedestrian_dynamics. cbn [s_x s_y s_psi s_vx s_vy s_dpsi]. f_equal; ring. Qed.
