From Coq Require Import Reals Lra Psatz List Bool.
From Verif Require Import Base R2 DataModel DynModel DynSpec.
Import ListNotations.
Open Scope R_scope.

Lemma ltb_spec a b : ltb a b = true <-> a < b.
Proof. unfold ltb. destruct (Rlt_dec a b); split; intros; [assumption| reflexivity| discriminate| contradiction]. Qed.
Lemma ltb_false a b : ltb a b = false <-> b <= a.
Proof. unfold ltb. destruct (Rlt_dec a b); split; intros; try discriminate; try lra; reflexivity. Qed.
Lemma leb_spec a b : leb a b = true <-> a <= b.
Proof. unfold leb. destruct (Rle_dec a b); split; intros; [assumption| reflexivity| discriminate| contradiction]. Qed.
Lemma leb_false a b : leb a b = false <-> b < a.
Proof. unfold leb. destruct (Rle_dec a b); split; intros; try discriminate; try lra; reflexivity. Qed.

Ltac cmp := unfold ltb, leb in *; repeat match goal with
  | |- context [Rlt_dec ?a ?b] => destruct (Rlt_dec a b); cbn [andb orb negb] in *
  | |- context [Rle_dec ?a ?b] => destruct (Rle_dec a b); cbn [andb orb negb] in * end; try lra.

(** *** Functions with a derivative from the right *)

Lemma decreasing f T : cont_on f T -> forall a b, 0 <= a -> a <= b -> b <= T -> (forall t, a <= t < b -> exists l, right_deriv f t l /\ l <= 0) -> f b <= f a.
Proof.
  intros C a b Ha Hab Hb D.
  assert (K : forall eps, 0 < eps -> f b <= f a + eps * (b - a)).
  { intros eps He.
    set (E := fun t => a <= t <= b /\ forall s, a <= s <= t -> f s <= f a + eps * (s - a)).
    assert (Ea : E a) by (split; [lra|]; intros s Hs; replace s with a by lra; lra).
    destruct (completeness E) as [c [U L]].
    { exists b. intros t [Ht _]. lra. }
    { exists a. exact Ea. }
    assert (Hac : a <= c) by (apply U; exact Ea).
    assert (Hcb : c <= b) by (apply L; intros t [Ht _]; lra).
    assert (Below : forall s, a <= s < c -> f s <= f a + eps * (s - a)).
    { intros s Hs. destruct (Rle_dec (f s) (f a + eps * (s - a))) as [|N]; [assumption|]. exfalso.
      assert (c <= s); [|lra]. apply L. intros t [Ht Q]. destruct (Rle_dec t s); [assumption|]. exfalso. apply N. apply Q. lra. }
    assert (Ec : E c).
    { split; [lra|]. intros s Hs. destruct (Rlt_dec s c) as [|]; [apply Below; lra|]. replace s with c by lra. clear s Hs n.
      destruct (Rle_dec (f c) (f a + eps * (c - a))) as [|N]; [assumption|]. exfalso. apply Rnot_le_lt in N.
      destruct (Req_EM_T a c) as [e|ne]; [subst c; lra|].
      set (g := f c - (f a + eps * (c - a))). assert (Hg : 0 < g) by (unfold g; lra).
      destruct (C c ltac:(lra) g Hg) as (d & Hd & Q).
      set (s := Rmax a (c - d / 2)). assert (Hs : a <= s < c) by (unfold s; split; [apply Rmax_l|]; apply Rmax_lub_lt; lra).
      specialize (Q s ltac:(lra)). assert (Rabs (s - c) < d).
      { rewrite Rabs_left by lra. unfold s. pose proof (Rmax_r a (c - d / 2)). lra. }
      specialize (Q H). apply Rabs_def2 in Q. pose proof (Below s Hs). unfold g in Q. assert (eps * (s - a) <= eps * (c - a)) by (apply Rmult_le_compat_l; lra). lra. }
    destruct (Req_EM_T c b) as [->|ne]; [destruct Ec as [_ Q]; apply Q; lra|].
    exfalso. destruct (D c ltac:(lra)) as (l & Dl & Hl). destruct (Dl eps He) as (d & Hd & Q).
    set (h := Rmin (d / 2) (b - c)). assert (Hh : 0 < h) by (unfold h; apply Rmin_glb_lt; lra).
    assert (Hh1 : h <= d / 2) by apply Rmin_l. assert (Hh2 : h <= b - c) by apply Rmin_r.
    assert (Enew : E (c + h)).
    { split; [lra|]. intros s Hs. destruct (Rle_dec s c); [destruct Ec as [_ Qc]; apply Qc; lra|].
      assert (Hk : 0 < s - c < d) by lra. specialize (Q (s - c) Hk). replace (c + (s - c)) with s in Q by ring. apply Rabs_def2 in Q.
      assert ((f s - f c) / (s - c) < eps) by lra.
      assert (f s - f c < eps * (s - c)). { apply (Rmult_lt_compat_r (s - c)) in H; [|lra]. unfold Rdiv in H. rewrite Rmult_assoc, Rinv_l, Rmult_1_r in H by lra. exact H. }
      destruct Ec as [_ Qc]. specialize (Qc c ltac:(lra)). lra. }
    pose proof (U _ Enew). lra. }
  destruct (Rle_dec (f b) (f a)) as [|N]; [assumption|]. exfalso. apply Rnot_le_lt in N.
  destruct (Req_EM_T a b) as [->|ne]; [lra|].
  pose (eps := (f b - f a) / 2 / (b - a)). assert (He : 0 < eps) by (unfold eps; apply Rdiv_lt_0_compat; lra).
  specialize (K eps He). unfold eps in K. replace ((f b - f a) / 2 / (b - a) * (b - a)) with ((f b - f a) / 2) in K by (field; lra). lra.
Qed.

Lemma cont_opp f T : cont_on f T -> cont_on (fun t => - f t) T.
Proof. intros C t Ht eps He. destruct (C t Ht eps He) as (d & Hd & Q). exists d. split; [exact Hd|]. intros s Hs H. specialize (Q s Hs H). replace (- f s - - f t) with (- (f s - f t)) by ring. rewrite Rabs_Ropp. exact Q. Qed.
Lemma right_deriv_opp f t l : right_deriv f t l -> right_deriv (fun t => - f t) t (- l).
Proof.
  intros D eps He. destruct (D eps He) as (d & Hd & Q). exists d. split; [exact Hd|]. intros h Hh. specialize (Q h Hh).
  replace ((- f (t + h) - - f t) / h - - l) with (- ((f (t + h) - f t) / h - l)) by (field; lra). rewrite Rabs_Ropp. exact Q.
Qed.

(** A bound that the derivative does not let the function cross. *)
Lemma stays_below f T M : cont_on f T -> (forall t, 0 <= t < T -> exists l, right_deriv f t l /\ (M <= f t -> l <= 0)) -> f 0 <= M -> forall t, 0 <= t <= T -> f t <= M.
Proof.
  intros C D H0 t Ht. destruct (Rle_dec (f t) M) as [|N]; [assumption|]. exfalso. apply Rnot_le_lt in N.
  set (E := fun s => 0 <= s <= t /\ f s <= M).
  destruct (completeness E) as [c [U L]].
  { exists t. intros s [Hs _]. lra. }
  { exists 0. split; [lra| exact H0]. }
  assert (Hc0 : 0 <= c) by (apply U; split; [lra| exact H0]).
  assert (Hct : c <= t) by (apply L; intros s [Hs _]; lra).
  assert (Ec : f c <= M).
  { destruct (Rle_dec (f c) M) as [|K]; [assumption|]. exfalso. apply Rnot_le_lt in K.
    destruct (C c ltac:(lra) (f c - M) ltac:(lra)) as (d & Hd & Q).
    assert (exists s, E s /\ c - d < s) as (s & [Hs Fs] & Hs2).
    { assert (~ (forall s, E s -> s <= c - d)) as NA by (intros A; pose proof (L (c - d) A); lra).
      apply Classical_Prop.NNPP. intros NE. apply NA. intros s Es. destruct (Rle_dec s (c - d)); [assumption|]. exfalso. apply NE. exists s. split; [exact Es| lra]. }
    assert (s <= c) by (apply U; split; assumption).
    specialize (Q s ltac:(lra)). rewrite Rabs_left1 in Q by lra. specialize (Q ltac:(lra)). apply Rabs_def2 in Q. lra. }
  assert (Hlt : c < t) by (destruct (Req_EM_T c t) as [->|]; lra).
  assert (Above : forall s, c < s <= t -> M < f s).
  { intros s Hs. destruct (Rlt_dec M (f s)); [assumption|]. assert (s <= c); [apply U; split; lra| lra]. }
  destruct (C c ltac:(lra) (f t - M) ltac:(lra)) as (d & Hd & Q).
  set (s := Rmin (c + d / 2) t). assert (Hs : c < s <= t) by (unfold s; split; [apply Rmin_glb_lt; lra| apply Rmin_r]).
  assert (s <= c + d / 2) by apply Rmin_l.
  specialize (Q s ltac:(lra)). rewrite Rabs_right in Q by lra. specialize (Q ltac:(lra)). apply Rabs_def2 in Q.
  assert (f t <= f s).
  { apply (decreasing f T C s t); try lra. intros r Hr. destruct (D r ltac:(lra)) as (l & Dl & Hl). exists l. split; [exact Dl|]. apply Hl. apply Rlt_le. apply Above. lra. }
  lra.
Qed.
Lemma stays_above f T M : cont_on f T -> (forall t, 0 <= t < T -> exists l, right_deriv f t l /\ (f t <= M -> 0 <= l)) -> M <= f 0 -> forall t, 0 <= t <= T -> M <= f t.
Proof.
  intros C D H0 t Ht. assert (- f t <= - M); [|lra]. apply (stays_below (fun t => - f t) T (- M)); [apply cont_opp; exact C| | lra| exact Ht].
  intros s Hs. destruct (D s Hs) as (l & Dl & Hl). exists (- l). split; [apply right_deriv_opp; exact Dl|]. intros K. assert (0 <= l) by (apply Hl; lra). lra.
Qed.
Lemma stays_within f r T lo hi : evolves f r T -> (forall t, 0 <= t < T -> hi <= f t -> r t <= 0) -> (forall t, 0 <= t < T -> f t <= lo -> 0 <= r t) -> within (f 0) lo hi ->
  forall t, 0 <= t <= T -> within (f t) lo hi.
Proof.
  intros [C D] Hh Hl [I1 I2] t Ht. split.
  - apply (stays_above f T lo C); try assumption. intros s Hs. exists (r s). split; [apply D; exact Hs| intros K; apply Hl; assumption].
  - apply (stays_below f T hi C); try assumption. intros s Hs. exists (r s). split; [apply D; exact Hs| intros K; apply Hh; assumption].
Qed.

(** Polynomials of degree two evolve as expected. *)
Lemma evolves_affine a b T : evolves (fun t => a + b * t) (fun _ => b) T.
Proof.
  split.
  - intros t _ eps He. exists (eps / (Rabs b + 1)). pose proof (Rabs_pos b). split; [apply Rdiv_lt_0_compat; lra|]. intros s _ H1.
    replace (a + b * s - (a + b * t)) with (b * (s - t)) by ring. rewrite Rabs_mult.
    apply Rle_lt_trans with (Rabs b * (eps / (Rabs b + 1))).
    + apply Rmult_le_compat_l; lra.
    + apply Rlt_le_trans with ((Rabs b + 1) * (eps / (Rabs b + 1))).
      * apply Rmult_lt_compat_r; [apply Rdiv_lt_0_compat; lra| lra].
      * right. field. lra.
  - intros t _ eps He. exists 1. split; [lra|]. intros h Hh. replace ((a + b * (t + h) - (a + b * t)) / h - b) with 0 by (field; lra). rewrite Rabs_R0. exact He.
Qed.
Lemma evolves_square a T : 0 <= T -> evolves (fun t => a / 2 * (t * t)) (fun t => a * t) T.
Proof.
  intros HT. split.
  - intros t Ht eps He. set (k := Rabs (a / 2) * (2 * T) + 1). assert (Hk : 0 < k) by (unfold k; pose proof (Rabs_pos (a / 2)); nra).
    exists (eps / k). split; [apply Rdiv_lt_0_compat; lra|]. intros s Hs H.
    replace (a / 2 * (s * s) - a / 2 * (t * t)) with (a / 2 * (s + t) * (s - t)) by field. rewrite !Rabs_mult.
    apply Rle_lt_trans with (Rabs (a / 2) * (2 * T) * Rabs (s - t)).
    + apply Rmult_le_compat_r; [apply Rabs_pos|]. apply Rmult_le_compat_l; [apply Rabs_pos|]. rewrite Rabs_right; lra.
    + apply Rle_lt_trans with ((k - 1) * Rabs (s - t)); [right; unfold k; ring|].
      apply Rle_lt_trans with (k * Rabs (s - t)); [apply Rmult_le_compat_r; [apply Rabs_pos| lra]|].
      apply Rlt_le_trans with (k * (eps / k)); [apply Rmult_lt_compat_l; assumption| right; field; lra].
  - intros t Ht eps He. exists (eps / (Rabs (a / 2) + 1)). pose proof (Rabs_pos (a / 2)). split; [apply Rdiv_lt_0_compat; lra|]. intros h Hh.
    replace ((a / 2 * ((t + h) * (t + h)) - a / 2 * (t * t)) / h - a * t) with (a / 2 * h) by (field; lra).
    rewrite Rabs_mult, (Rabs_right h) by lra.
    apply Rle_lt_trans with (Rabs (a / 2) * (eps / (Rabs (a / 2) + 1))); [apply Rmult_le_compat_l; lra|].
    apply Rlt_le_trans with ((Rabs (a / 2) + 1) * (eps / (Rabs (a / 2) + 1))); [apply Rmult_lt_compat_r; [apply Rdiv_lt_0_compat; lra| lra]| right; field; lra].
Qed.
Lemma evolves_const a T : evolves (fun _ => a) (fun _ => 0) T.
Proof.
  split; [intros t _ eps He; exists 1; split; [lra|]; intros; rewrite Rminus_diag_eq, Rabs_R0 by reflexivity; exact He|].
  intros t _ eps He. exists 1. split; [lra|]. intros h Hh. replace ((a - a) / h - 0) with 0 by (field; lra). rewrite Rabs_R0. exact He.
Qed.
Lemma evolves_ext f r f' r' T : evolves f r T -> (forall t, f t = f' t) -> (forall t, 0 <= t < T -> r t = r' t) -> evolves f' r' T.
Proof.
  intros [C D] Ef Er. split.
  - intros t Ht eps He. destruct (C t Ht eps He) as (d & Hd & Q). exists d. split; [exact Hd|]. intros s Hs H. rewrite <- !Ef. apply Q; assumption.
  - intros t Ht eps He. rewrite <- Er by exact Ht. destruct (D t Ht eps He) as (d & Hd & Q). exists d. split; [exact Hd|]. intros h Hh. rewrite <- !Ef. apply Q; assumption.
Qed.

(** *** The constraints *)

Lemma speed_at_max v a p : mp_vhi p <= v -> apply_full_acceleration_limits v a p <= 0.
Proof. intros H. unfold apply_full_acceleration_limits, apply_speed_constraint. cmp. Qed.
Lemma speed_at_min v a p : v <= mp_vlo p -> 0 <= apply_full_acceleration_limits v a p.
Proof. intros H. unfold apply_full_acceleration_limits, apply_speed_constraint. cmp. Qed.
Lemma rot_at_max o a lo hi : hi <= o -> apply_rot_speed_constraint o a lo hi <= 0.
Proof. intros H. unfold apply_rot_speed_constraint. cmp. Qed.
Lemma rot_at_min o a lo hi : o <= lo -> 0 <= apply_rot_speed_constraint o a lo hi.
Proof. intros H. unfold apply_rot_speed_constraint. cmp. Qed.
Lemma ang_at_max x a lo hi dlo dhi : hi <= x -> apply_full_ang_vel_limits x a lo hi dlo dhi <= 0.
Proof. intros H. unfold apply_full_ang_vel_limits, apply_ang_constraint. cmp. Qed.
Lemma ang_at_min x a lo hi dlo dhi : x <= lo -> 0 <= apply_full_ang_vel_limits x a lo hi dlo dhi.
Proof. intros H. unfold apply_full_ang_vel_limits, apply_ang_constraint. cmp. Qed.
Lemma steer_at_max x a dm ddm : 0 < ddm -> dm <= x -> steering_constraint x a dm ddm <= 0.
Proof. intros K H. unfold steering_constraint. cmp. Qed.
Lemma steer_at_min x a dm ddm : 0 < ddm -> x <= - dm -> 0 <= steering_constraint x a dm ddm.
Proof. intros K H. unfold steering_constraint. cmp. Qed.
Lemma force_within f lo hi : lo <= hi -> within (apply_force_limits f lo hi) lo hi.
Proof. intros H. unfold within, apply_force_limits. cmp; unfold Rmax, Rmin; repeat destruct (Rle_dec _ _); lra. Qed.

(** *** Runge-Kutta *)

Lemma sin_bound x : Rabs (sin x) <= 1.
Proof. apply Rabs_le. apply SIN_bound. Qed.

Section RK.
Context {X U : Type} (P : plant X U) (c : bool).
Hypothesis Ig : p_ignore P c = true.
Let addY := (fun a b : X * U => (p_addX P (fst a) (fst b), p_addU P (snd a) (snd b))).
Let scaleY := (fun (k : R) (a : X * U) => (p_scaleX P k (fst a), p_scaleU P k (snd a))).
Let F (st : X) := (fun y : X * U => match p_dynamics P c st (fst y) (if p_ignore P c then p_zero P else snd y) with Some dx => Some (dx, p_scaleU P 0 (snd y)) | None => None end).

Lemma comb_fst h : forall (ks1 ks2 : list (X * U)) cs y1 y2, map fst ks1 = map fst ks2 -> fst y1 = fst y2 -> fst (rk_comb addY scaleY y1 h cs ks1) = fst (rk_comb addY scaleY y2 h cs ks2).
Proof.
  unfold rk_comb. induction ks1 as [|k1 ks1 IH]; intros [|k2 ks2] [|c0 cs] y1 y2 E H; try discriminate; cbn; try assumption.
  cbn in E. injection E as E1 E2. apply IH; [exact E2|]. cbn. congruence.
Qed.
Lemma F_fst st y1 y2 : fst y1 = fst y2 -> match F st y1, F st y2 with Some a, Some b => fst a = fst b | None, None => True | _, _ => False end.
Proof. intros H. unfold F. rewrite Ig, H. destruct (p_dynamics P c st (fst y2) (p_zero P)); [reflexivity| exact I]. Qed.
Lemma stages_fst st h : forall rows (ks1 ks2 : list (X * U)) y1 y2, map fst ks1 = map fst ks2 -> fst y1 = fst y2 ->
  match rk_stages addY scaleY (F st) y1 h rows ks1, rk_stages addY scaleY (F st) y2 h rows ks2 with Some a, Some b => map fst a = map fst b | None, None => True | _, _ => False end.
Proof.
  induction rows as [|r rows IH]; intros ks1 ks2 y1 y2 E H; cbn [rk_stages]; [exact E|].
  pose proof (F_fst st _ _ (comb_fst h ks1 ks2 r y1 y2 E H)) as K.
  destruct (F st (rk_comb addY scaleY y1 h r ks1)), (F st (rk_comb addY scaleY y2 h r ks2)); try contradiction; [|exact I].
  apply IH; [|exact H]. rewrite !map_app. cbn. rewrite E, K. reflexivity.
Qed.
Lemma step_fst st tab h y1 y2 : fst y1 = fst y2 ->
  match rk_step addY scaleY (F st) tab y1 h, rk_step addY scaleY (F st) tab y2 h with Some a, Some b => fst a = fst b | None, None => True | _, _ => False end.
Proof.
  intros H. unfold rk_step. pose proof (stages_fst st h (fst tab) [] [] y1 y2 eq_refl H) as K.
  destruct (rk_stages _ _ _ y1 h _ _), (rk_stages _ _ _ y2 h _ _); try contradiction; [|exact I]. apply comb_fst; assumption.
Qed.
Lemma solve_fst st tab : forall hs y1 y2, fst y1 = fst y2 ->
  match rk_solve addY scaleY (F st) tab y1 hs, rk_solve addY scaleY (F st) tab y2 hs with Some a, Some b => fst a = fst b | None, None => True | _, _ => False end.
Proof.
  induction hs as [|h hs IH]; intros y1 y2 H; cbn [rk_solve]; [exact H|].
  pose proof (step_fst st tab h y1 y2 H) as K. destruct (rk_step _ _ _ _ y1 h), (rk_step _ _ _ _ y2 h); try contradiction; [|exact I]. apply IH. exact K.
Qed.
Lemma update_deaf tab st u1 u2 hs : update P tab c st u1 hs = update P tab c st u2 hs.
Proof.
  unfold update. pose proof (solve_fst st tab hs (st, u1) (st, u2) eq_refl) as K. unfold F, addY, scaleY in K.
  destruct (rk_solve _ _ _ tab (st, u1) hs), (rk_solve _ _ _ tab (st, u2) hs); try contradiction; [rewrite K; reflexivity| reflexivity].
Qed.
Lemma updates_deaf tab : forall h1 h2 st, same_steps h1 h2 -> updates P tab c st h1 = updates P tab c st h2.
Proof.
  unfold same_steps. induction h1 as [|[u1 hs1] h1 IH]; intros [|[u2 hs2] h2] st E; try discriminate; [reflexivity|].
  cbn in E. injection E as <- E. cbn [updates]. rewrite (update_deaf tab st u1 u2 hs1). destruct (update P tab c st u2 hs1); [|reflexivity]. apply IH. exact E.
Qed.
End RK.
