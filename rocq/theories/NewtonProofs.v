(** Calculus of derivatives from the right. *)
From Coq Require Import Reals Lra Psatz.
From Verif Require Import Base R2 DataModel DynModel DynSpec DynProofs NewtonSpec.
Open Scope R_scope.

(** A function with a derivative from the right is, to the right, a function with a
    derivative. *)
Lemma rd_extend f t l : right_deriv f t l -> exists F, (forall s, t <= s -> F s = f s) /\ derivable_pt_lim F t l.
Proof.
  intros H. exists (fun s => if Rle_dec t s then f s else f t + l * (s - t)). split.
  - intros s Hs. destruct (Rle_dec t s); [reflexivity| contradiction].
  - intros eps He. destruct (H eps He) as (d & Hd & K). exists (mkposreal d Hd). intros h Hh Hhd. cbn in Hhd.
    destruct (Rle_dec t t) as [_|N]; [|lra].
    destruct (Rle_dec t (t + h)) as [P|P].
    + apply K. split; [lra|]. rewrite Rabs_right in Hhd; lra.
    + replace ((f t + l * (t + h - t) - f t) / h - l) with 0 by (field; exact Hh). rewrite Rabs_R0. exact He.
Qed.

Lemma rd_restrict F f t l : (forall s, t <= s -> F s = f s) -> derivable_pt_lim F t l -> right_deriv f t l.
Proof.
  intros E H eps He. destruct (H eps He) as ([d Hd] & K). exists d. split; [exact Hd|]. intros h Hh.
  rewrite <- (E (t + h)) by lra. rewrite <- (E t) by lra. apply K; [lra|]. cbn. rewrite Rabs_right; lra.
Qed.

Lemma rd_plus f g t a b : right_deriv f t a -> right_deriv g t b -> right_deriv (fun s => f s + g s) t (a + b).
Proof.
  intros (F & EF & DF)%rd_extend (G & EG & DG)%rd_extend. eapply rd_restrict; [|exact (derivable_pt_lim_plus F G t a b DF DG)].
  intros s Hs. unfold plus_fct. rewrite EF, EG by exact Hs. reflexivity.
Qed.
Lemma rd_mult f g t a b : right_deriv f t a -> right_deriv g t b -> right_deriv (fun s => f s * g s) t (a * g t + f t * b).
Proof.
  intros (F & EF & DF)%rd_extend (G & EG & DG)%rd_extend. rewrite <- (EF t), <- (EG t) by lra. eapply rd_restrict; [|exact (derivable_pt_lim_mult F G t a b DF DG)].
  intros s Hs. unfold mult_fct. rewrite EF, EG by exact Hs. reflexivity.
Qed.
Lemma rd_comp f g t a b : right_deriv f t a -> derivable_pt_lim g (f t) b -> right_deriv (fun s => g (f s)) t (b * a).
Proof.
  intros (F & EF & DF)%rd_extend DG. rewrite <- (EF t) in DG by lra. eapply rd_restrict; [|exact (derivable_pt_lim_comp F g t a b DF DG)].
  intros s Hs. unfold comp. rewrite EF by exact Hs. reflexivity.
Qed.

(** Continuity on an interval is continuity of the function that is constant outside. *)
Definition held (f : R -> R) (T : R) (s : R) : R := f (Rmax 0 (Rmin s T)).
Lemma held_in f T s : 0 <= s <= T -> held f T s = f s.
Proof. intros H. unfold held. rewrite Rmin_left by lra. rewrite Rmax_right by lra. reflexivity. Qed.
Lemma held_cont f T : 0 <= T -> cont_on f T -> forall t, 0 <= t <= T -> continuity_pt (held f T) t.
Proof.
  intros HT H t Ht. intros eps He. destruct (H t Ht eps He) as (d & Hd & K). exists d. split; [exact Hd|]. intros s [_ Hs].
  unfold dist in *. cbn in *. unfold R_dist in *. rewrite (held_in f T t Ht). unfold held. apply K.
  - unfold Rmax, Rmin. destruct (Rle_dec s T); destruct (Rle_dec _ _); lra.
  - revert Hs. unfold Rmax, Rmin, Rabs. destruct (Rle_dec s T); destruct (Rle_dec _ _); repeat destruct (Rcase_abs _); lra.
Qed.
Lemma cont_held f g T : (forall s, 0 <= s <= T -> g s = f s) -> (forall t, 0 <= t <= T -> continuity_pt g t) -> cont_on f T.
Proof.
  intros E H t Ht eps He. destruct (H t Ht eps He) as (d & Hd & K). exists d. split; [exact Hd|]. intros s Hs Hst.
  rewrite <- (E s Hs), <- (E t Ht). destruct (Req_EM_T t s) as [->|N].
  - rewrite Rminus_diag_eq by reflexivity. rewrite Rabs_R0. exact He.
  - apply (K s). split; [split; [exact I| exact N]| exact Hst].
Qed.

Lemma cont_bin (op : (R -> R) -> (R -> R) -> R -> R) f g h T :
  (forall F G t, continuity_pt F t -> continuity_pt G t -> continuity_pt (op F G) t) ->
  (forall s, 0 <= s <= T -> op (held f T) (held g T) s = h s) -> cont_on f T -> cont_on g T -> cont_on h T.
Proof.
  intros O E Hf Hg t Ht. assert (HT : 0 <= T) by lra. revert t Ht. apply (cont_held h (op (held f T) (held g T))).
  - exact E.
  - intros t Ht. apply O; apply held_cont; assumption.
Qed.
Lemma cont_plus f g T : cont_on f T -> cont_on g T -> cont_on (fun s => f s + g s) T.
Proof. apply (cont_bin (fun F G => plus_fct F G)); [exact continuity_pt_plus|]. intros s Hs. unfold plus_fct. rewrite !held_in by exact Hs. reflexivity. Qed.
Lemma cont_mult f g T : cont_on f T -> cont_on g T -> cont_on (fun s => f s * g s) T.
Proof. apply (cont_bin (fun F G => mult_fct F G)); [exact continuity_pt_mult|]. intros s Hs. unfold mult_fct. rewrite !held_in by exact Hs. reflexivity. Qed.
Lemma cont_comp f g T : cont_on f T -> (forall t, 0 <= t <= T -> continuity_pt g (f t)) -> cont_on (fun s => g (f s)) T.
Proof.
  intros Hf Hg t Ht. assert (HT : 0 <= T) by lra. revert t Ht. apply (cont_held (fun s => g (f s)) (comp g (held f T))).
  - intros s Hs. unfold comp. rewrite held_in by exact Hs. reflexivity.
  - intros t Ht. apply continuity_pt_comp; [apply held_cont; assumption|]. rewrite held_in by exact Ht. apply Hg, Ht.
Qed.

Lemma ev_plus f g a b T : evolves f a T -> evolves g b T -> evolves (fun t => f t + g t) (fun t => a t + b t) T.
Proof. intros [A B] [C D]. split; [apply cont_plus; assumption|]. intros t Ht. apply rd_plus; auto. Qed.
Lemma ev_mult f g a b T : evolves f a T -> evolves g b T -> evolves (fun t => f t * g t) (fun t => a t * g t + f t * b t) T.
Proof. intros [A B] [C D]. split; [apply cont_mult; assumption|]. intros t Ht. apply rd_mult; auto. Qed.
Lemma ev_comp f g a g' T : evolves f a T -> (forall t, 0 <= t <= T -> derivable_pt_lim g (f t) (g' (f t))) -> evolves (fun t => g (f t)) (fun t => g' (f t) * a t) T.
Proof.
  intros [A B] H. split.
  - apply cont_comp; [exact A|]. intros t Ht. apply derivable_continuous_pt. exists (g' (f t)). apply H, Ht.
  - intros t Ht. apply rd_comp; [apply B, Ht| apply H; lra].
Qed.
Lemma ev_cos f a T : evolves f a T -> evolves (fun t => cos (f t)) (fun t => - sin (f t) * a t) T.
Proof. intros H. exact (ev_comp f cos a (fun y => - sin y) T H (fun t _ => derivable_pt_lim_cos (f t))). Qed.
Lemma ev_sin f a T : evolves f a T -> evolves (fun t => sin (f t)) (fun t => cos (f t) * a t) T.
Proof. intros H. exact (ev_comp f sin a cos T H (fun t _ => derivable_pt_lim_sin (f t))). Qed.
Lemma ev_ln f a T : evolves f a T -> (forall t, 0 <= t <= T -> 0 < f t) -> evolves (fun t => ln (f t)) (fun t => / f t * a t) T.
Proof. intros H P. exact (ev_comp f ln a Rinv T H (fun t Ht => derivable_pt_lim_ln (f t) (P t Ht))). Qed.
Lemma ev_scale k f a T : evolves f a T -> evolves (fun t => k * f t) (fun t => k * a t) T.
Proof. intros H. eapply evolves_ext; [exact (ev_mult _ _ _ _ T (evolves_const k T) H)| reflexivity| intros t _; cbv beta; ring]. Qed.
Lemma ev_opp f a T : evolves f a T -> evolves (fun t => - f t) (fun t => - a t) T.
Proof. intros H. eapply evolves_ext; [exact (ev_scale (-1) f a T H)| intros t; cbv beta; ring| intros t _; cbv beta; ring]. Qed.

(** The derivative of a vector given in a turning frame. *)
Lemma turning psi w vx ax vy ay T : evolves psi w T -> evolves vx ax T -> evolves vy ay T ->
  changes (fun t => from_body (psi t) (vx t, vy t)) (fun t => from_body (psi t) (ax t - w t * vy t, ay t + w t * vx t)) T.
Proof.
  intros P X Y. unfold changes, from_body. cbn [fst snd]. split.
  - eapply evolves_ext; [exact (ev_plus _ _ _ _ T (ev_mult _ _ _ _ T (ev_cos _ _ T P) X) (ev_opp _ _ T (ev_mult _ _ _ _ T (ev_sin _ _ T P) Y)))| intros; cbv beta; ring| intros; cbv beta; ring].
  - eapply evolves_ext; [exact (ev_plus _ _ _ _ T (ev_mult _ _ _ _ T (ev_sin _ _ T P) X) (ev_mult _ _ _ _ T (ev_cos _ _ T P) Y))| intros; cbv beta; ring| intros; cbv beta; ring].
Qed.

Lemma changes_ext f r f' r' T : changes f r T -> (forall t, f t = f' t) -> (forall t, 0 <= t < T -> r t = r' t) -> changes f' r' T.
Proof. intros [A B] E E'. split; [apply (evolves_ext _ _ _ _ T A)| apply (evolves_ext _ _ _ _ T B)]; intros t; cbv beta; [rewrite E| intros Ht; rewrite E' by exact Ht| rewrite E| intros Ht; rewrite E' by exact Ht]; reflexivity. Qed.

(** A function with the derivative zero is constant. *)
Lemma ev_constant f a T : evolves f a T -> (forall t, 0 <= t < T -> a t = 0) -> forall t, 0 <= t <= T -> f t = f 0.
Proof.
  intros [C D] Z t Ht. apply Rle_antisym.
  - apply (decreasing f T C 0 t); try lra. intros s Hs. exists (a s). split; [apply D; lra| rewrite Z; lra].
  - apply Ropp_le_cancel. apply (decreasing (fun t => - f t) T (cont_opp f T C) 0 t); try lra. intros s Hs. exists (- a s). split; [apply right_deriv_opp, D; lra| rewrite Z; lra].
Qed.
(** A function with a constant derivative is affine. *)
Lemma ev_linear f a c T : evolves f a T -> (forall t, 0 <= t < T -> a t = c) -> forall t, 0 <= t <= T -> f t = f 0 + c * t.
Proof.
  intros H Z t Ht. pose proof (ev_constant (fun t => f t + (0 + - c * t)) (fun t => a t + - c) T (ev_plus _ _ _ _ T H (evolves_affine 0 (- c) T)) ltac:(intros s Hs; cbv beta; rewrite Z by exact Hs; ring) t Ht) as K. cbv beta in K. lra.
Qed.

(** A vector is not longer than its longest projection. *)
Lemma norm_by_projection v B : 0 <= B -> (forall n, vdot n n = 1 -> vdot n v <= B) -> vnorm v <= B.
Proof.
  intros HB H. destruct (Req_EM_T (vnorm v) 0) as [E|N]; [lra|].
  assert (P : 0 < vnorm v) by (pose proof (vnorm_nonneg v); lra). pose proof (vnorm_sq v) as S.
  specialize (H (vscale (/ vnorm v) v)). assert (E : forall k w, vdot (vscale k v) w = k * vdot v w) by (intros; unfold vdot, vscale; cbn; ring).
  assert (E2 : vdot (vscale (/ vnorm v) v) v = vnorm v) by (rewrite E, <- S; field; exact N).
  rewrite E2 in H. apply H. rewrite E. replace (vdot v (vscale (/ vnorm v) v)) with (/ vnorm v * vdot v v) by (unfold vdot, vscale; cbn; ring). rewrite <- S. field. exact N.
Qed.

(** A unit vector is not longer than one along a unit direction. *)
Lemma dot_dir n a : vdot n n = 1 -> vdot n (dir a) <= 1.
Proof.
  unfold vdot, dir. cbn. intros H. pose proof (sin2_cos2 a) as S. unfold Rsqr in S. pose proof (Rle_0_sqr (fst n - cos a)). pose proof (Rle_0_sqr (snd n - sin a)). unfold Rsqr in *. nra.
Qed.

(** The change of velocity by thrust along unit directions, when the thrust burns mass:
    at most the logarithm of the ratio of the masses over the constant. *)
Lemma delta_v V m a1 a2 F1 F2 CT T : 0 < CT -> (forall t, 0 <= t <= T -> 0 < m t) -> (forall t, 0 <= t < T -> 0 <= F1 t /\ 0 <= F2 t) ->
  changes V (fun t => vscale (/ m t) (vadd (vscale (F1 t) (dir (a1 t))) (vscale (F2 t) (dir (a2 t))))) T ->
  evolves m (fun t => - CT * (F1 t + F2 t)) T ->
  forall s t, 0 <= s <= t -> t <= T -> vdist (V t) (V s) <= ln (m s / m t) / CT.
Proof.
  intros HC Hm HF [VX VY] HM s t Hst HtT.
  assert (K : forall n, vdot n n = 1 -> vdot n (V t) + ln (m t) / CT <= vdot n (V s) + ln (m s) / CT).
  { intros n Hn. pose proof (ev_plus _ _ _ _ T (ev_plus _ _ _ _ T (ev_scale (fst n) _ _ T VX) (ev_scale (snd n) _ _ T VY)) (ev_scale (/ CT) _ _ T (ev_ln m _ T HM Hm))) as [C D].
    pose proof (decreasing _ T C s t ltac:(lra) ltac:(lra) HtT) as Q. cbv beta in Q.
    assert (Q' : forall t0 : R, s <= t0 < t -> exists l, right_deriv (fun t => fst n * fst (V t) + snd n * snd (V t) + / CT * ln (m t)) t0 l /\ l <= 0).
    { intros r Hr. eexists. split; [apply D; lra|]. cbv beta. unfold vscale, vadd. cbn [fst snd].
      assert (Hr' : 0 <= r < T) by lra. destruct (HF r Hr') as [P1 P2]. pose proof (Hm r ltac:(lra)) as Pm. pose proof (dot_dir n (a1 r) Hn) as D1. pose proof (dot_dir n (a2 r) Hn) as D2. unfold vdot in D1, D2.
      match goal with |- ?e <= 0 => replace e with (/ m r * (F1 r * (fst n * fst (dir (a1 r)) + snd n * snd (dir (a1 r)) - 1) + F2 r * (fst n * fst (dir (a2 r)) + snd n * snd (dir (a2 r)) - 1))) by (field; lra) end.
      pose proof (Rinv_0_lt_compat _ Pm) as Pi. rewrite <- (Rmult_0_r (/ m r)). apply Rmult_le_compat_l; [lra|].
      rewrite <- (Rplus_0_r 0). apply Rplus_le_compat; [rewrite <- (Rmult_0_r (F1 r))| rewrite <- (Rmult_0_r (F2 r))]; (apply Rmult_le_compat_l; lra). }
    specialize (Q Q'). unfold vdot. unfold Rdiv. lra. }
  assert (P1 := Hm s ltac:(lra)). assert (P2 := Hm t ltac:(lra)).
  assert (L : ln (m s / m t) = ln (m s) - ln (m t)) by (unfold Rdiv; rewrite ln_mult by (try apply Rinv_0_lt_compat; lra); rewrite ln_Rinv by lra; ring).
  rewrite L. unfold vdist. apply norm_by_projection.
  - pose proof (K (1, 0) ltac:(unfold vdot; cbn; ring)) as K1. pose proof (K (-1, 0) ltac:(unfold vdot; cbn; ring)) as K2. unfold vdot in *. cbn [fst snd] in *. unfold Rdiv in *. lra.
  - intros n Hn. specialize (K n Hn). unfold vdot, vsub in *. cbn [fst snd] in *. unfold Rdiv in *. lra.
Qed.

Lemma clip_acc a p : mp_alo p <= mp_ahi p -> apply_acceleration_limits a p = clip (mp_alo p) (mp_ahi p) a.
Proof. intros H. unfold apply_acceleration_limits, clip, Rmin, ltb. destruct (Rlt_dec a (mp_alo p)); destruct (Rlt_dec (mp_ahi p) a); destruct (Rle_dec a (mp_ahi p)); unfold Rmax; repeat match goal with |- context [if ?d then _ else _] => destruct d end; try discriminate; lra. Qed.
Lemma clip_force a lo hi : lo <= hi -> apply_force_limits a lo hi = clip lo hi a.
Proof. intros H. unfold apply_force_limits, clip, ltb. destruct (Rlt_dec lo a); destruct (Rlt_dec a hi); cbn; unfold Rmin; destruct (Rle_dec a hi); unfold Rmax; repeat match goal with |- context [if ?d then _ else _] => destruct d end; lra. Qed.
