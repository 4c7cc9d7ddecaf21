(** Lemmas on the frequency weighted acceleration. *)
From Coq Require Import String Reals Lra Psatz List Bool ZArith Lia Arith QArith Qcanon Sorted.
From Verif Require Import Base Num SeqModel SeqSpec SeqProofs SeqProofs2 R2 GeoModel LaneModel LaneSpec LaneProofs EvalModel EvalSpec EvalProofs.
Import ListNotations.
Open Scope R_scope.

(** *** Finite sums *)
Definition sumf (f : nat -> R) (n : nat) : R := rsum (map f (List.seq 0 n)).
Lemma sum_S f n : sumf f (S n) = sumf f n + f n.
Proof. unfold sumf. rewrite seq_S, map_app, rsum_app. cbn [map]. rewrite Nat.add_0_l. unfold rsum at 2. cbn [fold_left]. lra. Qed.
Lemma sum_ext f g n : (forall j, (j < n)%nat -> f j = g j) -> sumf f n = sumf g n.
Proof. intro H. induction n as [|n IH]; [reflexivity|]. rewrite !sum_S, (H n) by lia. rewrite IH; [reflexivity|]. intros j J. apply H. lia. Qed.
Lemma sum_scal c f n : sumf (fun j => c * f j) n = c * sumf f n.
Proof. induction n as [|n IH]; [cbn; unfold sumf, rsum; cbn; ring|]. rewrite !sum_S, IH. ring. Qed.
Lemma sum_plus f g n : sumf (fun j => f j + g j) n = sumf f n + sumf g n.
Proof. induction n as [|n IH]; [unfold sumf, rsum; cbn; ring|]. rewrite !sum_S, IH. ring. Qed.
Lemma sum_const c n : sumf (fun _ => c) n = INR n * c.
Proof. induction n as [|n IH]; [unfold sumf, rsum; cbn; ring|]. rewrite sum_S, IH, S_INR. ring. Qed.
Lemma sum_tele g n : sumf (fun j => g (S j) - g j) n = g n - g 0%nat.
Proof. induction n as [|n IH]; [unfold sumf, rsum; cbn; ring|]. rewrite sum_S, IH. ring. Qed.
Lemma sum_single f n k : (k < n)%nat -> (forall j, (j < n)%nat -> j <> k -> f j = 0) -> sumf f n = f k.
Proof.
  induction n as [|n IH]; intros K Z; [lia|]. rewrite sum_S. destruct (Nat.eq_dec k n) as [->|Ne].
  - rewrite (sum_ext f (fun _ => 0)) by (intros j J; apply Z; lia). rewrite sum_const. ring.
  - rewrite IH by (try lia; intros j J Nj; apply Z; lia). rewrite (Z n) by lia. ring.
Qed.

(** *** Sums of sinusoids *)
Definition angle (n k j : nat) : R := 2 * PI * INR j * INR k / INR n.
Section Trig.
Variables (n q : nat).
Hypothesis Q : (0 < q < n)%nat.
Let y := PI * INR q / INR n.
Lemma npos : 0 < INR n.
Proof. apply lt_0_INR. lia. Qed.
Lemma sin_y : 0 < sin y.
Proof.
  assert (0 < INR q) by (apply lt_0_INR; lia). assert (INR q < INR n) by (apply lt_INR; lia). pose proof npos. pose proof PI_RGT_0. unfold y.
  apply sin_gt_0; [apply Rmult_lt_0_compat; [nra|apply Rinv_0_lt_compat; lra]|]. apply (Rmult_lt_reg_r (INR n)); [lra|]. unfold Rdiv. rewrite Rmult_assoc, Rinv_l by lra. nra.
Qed.
Lemma angle_y j : angle n q j = 2 * INR j * y.
Proof. unfold angle, y. pose proof npos. field. lra. Qed.
Lemma full_turn : 2 * INR n * y = 2 * INR q * PI.
Proof. unfold y. pose proof npos. field. lra. Qed.
Lemma cos_sum : sumf (fun j => cos (angle n q j)) n = 0.
Proof.
  assert (E : 2 * sin y * sumf (fun j => cos (angle n q j)) n = 0); [|pose proof sin_y; nra]. rewrite <- sum_scal. rewrite (sum_ext _ (fun j => sin (2 * INR (S j) * y - y) - sin (2 * INR j * y - y))).
  - rewrite (sum_tele (fun j => sin (2 * INR j * y - y)) n). rewrite full_turn. replace (2 * INR q * PI - y) with (- y + 2 * INR q * PI) by ring. rewrite sin_period. cbn [INR]. replace (2 * 0 * y - y) with (- y) by ring. ring.
  - intros j _. rewrite angle_y, S_INR. replace (2 * (INR j + 1) * y - y) with (2 * INR j * y + y) by ring. rewrite sin_plus, sin_minus. ring.
Qed.
Lemma sin_sum : sumf (fun j => sin (angle n q j)) n = 0.
Proof.
  assert (E : 2 * sin y * sumf (fun j => sin (angle n q j)) n = 0); [|pose proof sin_y; nra]. rewrite <- sum_scal. rewrite (sum_ext _ (fun j => - cos (2 * INR (S j) * y - y) - - cos (2 * INR j * y - y))).
  - rewrite (sum_tele (fun j => - cos (2 * INR j * y - y)) n). rewrite full_turn. replace (2 * INR q * PI - y) with (- y + 2 * INR q * PI) by ring. rewrite cos_period. cbn [INR]. replace (2 * 0 * y - y) with (- y) by ring. ring.
  - intros j _. rewrite angle_y, S_INR. replace (2 * (INR j + 1) * y - y) with (2 * INR j * y + y) by ring. rewrite cos_plus, cos_minus. ring.
Qed.
Lemma cos_sum_phase p : sumf (fun j => cos (angle n q j + p)) n = 0.
Proof. rewrite (sum_ext _ (fun j => cos p * cos (angle n q j) + - sin p * sin (angle n q j))) by (intros j _; rewrite cos_plus; ring). rewrite sum_plus, !sum_scal, cos_sum, sin_sum. ring. Qed.
Lemma sin_sum_phase p : sumf (fun j => sin (angle n q j + p)) n = 0.
Proof. rewrite (sum_ext _ (fun j => cos p * sin (angle n q j) + sin p * cos (angle n q j))) by (intros j _; rewrite sin_plus; ring). rewrite sum_plus, !sum_scal, cos_sum, sin_sum. ring. Qed.
End Trig.

Lemma angle_add n k l j : (0 < n)%nat -> angle n k j + angle n l j = angle n (k + l) j.
Proof. intro N. unfold angle. rewrite plus_INR. assert (0 < INR n) by (apply lt_0_INR; exact N). field. lra. Qed.
Section Modes.
Variables (n k : nat) (p : R).
Hypothesis K : (0 < k)%nat.
Hypothesis KN : (2 * k < n)%nat.
Lemma mode_cos l : (k + l < n)%nat -> sumf (fun j => cos (angle n k j + p) * cos (angle n l j)) n = if (l =? k)%nat then INR n / 2 * cos p else 0.
Proof.
  intro L. rewrite (sum_ext _ (fun j => 1 / 2 * cos (angle n (k + l) j + p) + 1 / 2 * cos (angle n k j - angle n l j + p))).
  2:{ intros j _. rewrite <- angle_add by lia. replace (angle n k j + angle n l j + p) with (angle n k j + p + angle n l j) by ring. replace (angle n k j - angle n l j + p) with (angle n k j + p - angle n l j) by ring. rewrite (cos_plus (angle n k j + p)), (cos_minus (angle n k j + p)). field. }
  rewrite sum_plus, !sum_scal, cos_sum_phase by lia. destruct (Nat.eqb_spec l k) as [->|Ne].
  - rewrite (sum_ext _ (fun _ => cos p)) by (intros j _; f_equal; ring). rewrite sum_const. field.
  - destruct (le_lt_dec l k) as [Le|Lt].
    + rewrite (sum_ext _ (fun j => cos (angle n (k - l) j + p))); [rewrite cos_sum_phase by lia; ring|]. intros j _. do 2 f_equal. replace k with (k - l + l)%nat at 1 by lia. rewrite <- angle_add by lia. ring.
    + rewrite (sum_ext _ (fun j => cos (angle n (l - k) j + - p))); [rewrite cos_sum_phase by lia; ring|]. intros j _. rewrite <- cos_neg. f_equal. replace l with (l - k + k)%nat at 1 by lia. rewrite <- angle_add by lia. ring.
Qed.
Lemma mode_sin l : (k + l < n)%nat -> sumf (fun j => cos (angle n k j + p) * sin (angle n l j)) n = if (l =? k)%nat then - (INR n / 2 * sin p) else 0.
Proof.
  intro L. rewrite (sum_ext _ (fun j => 1 / 2 * sin (angle n (k + l) j + p) + - (1 / 2) * sin (angle n k j - angle n l j + p))).
  2:{ intros j _. rewrite <- angle_add by lia. replace (angle n k j + angle n l j + p) with (angle n k j + p + angle n l j) by ring. replace (angle n k j - angle n l j + p) with (angle n k j + p - angle n l j) by ring. rewrite (sin_plus (angle n k j + p)), (sin_minus (angle n k j + p)). field. }
  rewrite sum_plus, !sum_scal, sin_sum_phase by lia. destruct (Nat.eqb_spec l k) as [->|Ne].
  - rewrite (sum_ext _ (fun _ => sin p)) by (intros j _; f_equal; ring). rewrite sum_const. field.
  - destruct (le_lt_dec l k) as [Le|Lt].
    + rewrite (sum_ext _ (fun j => sin (angle n (k - l) j + p))); [rewrite sin_sum_phase by lia; ring|]. intros j _. do 2 f_equal. replace k with (k - l + l)%nat at 1 by lia. rewrite <- angle_add by lia. ring.
    + rewrite (sum_ext _ (fun j => -1 * sin (angle n (l - k) j + - p))); [rewrite sum_scal, sin_sum_phase by lia; ring|]. intros j _. replace (-1 * sin (angle n (l - k) j + - p)) with (- sin (angle n (l - k) j + - p)) by ring. rewrite <- sin_neg. f_equal. replace l with (l - k + k)%nat at 1 by lia. rewrite <- angle_add by lia. ring.
Qed.
End Modes.

(** *** The transforms as sums *)
Lemma combine_seq (g : nat -> R) n : combine (List.seq 0 n) (map g (List.seq 0 n)) = map (fun j => (j, g j)) (List.seq 0 n).
Proof. generalize 0%nat. induction n as [|n IH]; intro s; [reflexivity|]. cbn [List.seq map combine]. rewrite IH. reflexivity. Qed.
Lemma dft_re_sum g n k : dft_re (map g (List.seq 0 n)) k = sumf (fun j => g j * cos (angle n k j)) n.
Proof. unfold dft_re, sumf. rewrite map_length, seq_length, combine_seq, map_map. reflexivity. Qed.
Lemma dft_im_sum g n k : dft_im (map g (List.seq 0 n)) k = - sumf (fun j => g j * sin (angle n k j)) n.
Proof. unfold dft_im, sumf. rewrite map_length, seq_length, combine_seq, map_map. reflexivity. Qed.
Lemma as_samples (l : list R) : l = map (fun j => nth j l 0) (List.seq 0 (length l)).
Proof.
  apply nth_ext with (d := 0) (d' := 0); [rewrite map_length, seq_length; reflexivity|]. intros i I.
  set (g := fun j => nth j l 0). rewrite (nth_indep (map g _) 0 (g 0%nat)) by (rewrite map_length, seq_length; exact I). rewrite (map_nth g). rewrite seq_nth by exact I. reflexivity.
Qed.
Definition weighted (l : list R) : list (R * R) :=
  map (fun k => (dft_re l k * weight (INR k / (INR (length l) * (1 / 10))), dft_im l k * weight (INR k / (INR (length l) * (1 / 10))))) (List.seq 0 (length l / 2 + 1)).
Lemma filter_weight f : acc_freq_filter f = weight f.
Proof. unfold acc_freq_filter, weight. f_equal; ring. Qed.
Lemma acc_rms_weighted l : (2 <= length l)%nat -> acc_rms_of l = Ok (rms (map (irfft_at (weighted l)) (List.seq 0 (2 * (length l / 2))))).
Proof.
  intro N. unfold acc_rms_of. destruct l as [|a0 l0]; [cbn in N; lia|]. remember (a0 :: l0) as l eqn:El. assert (rfft l = Ok (map (fun k => (dft_re l k, dft_im l k)) (List.seq 0 (length l / 2 + 1)))) as -> by (rewrite El; reflexivity). clear El a0 l0. cbn [LaneModel.bind]. cbv zeta. unfold rfftfreq.
  assert (C : forall (A B : Type) (f : nat -> A) (g : nat -> B) m, combine (map f m) (map g m) = map (fun k => (f k, g k)) m) by (intros A B f g m; induction m as [|x m IH]; [reflexivity|]; cbn [map combine]; rewrite IH; reflexivity).
  rewrite C, map_map. cbn [fst snd].
  assert (map (fun x => (dft_re l x * acc_freq_filter (INR x / (INR (length l) * (1 / 10))), dft_im l x * acc_freq_filter (INR x / (INR (length l) * (1 / 10))))) (List.seq 0 (length l / 2 + 1)) = weighted l) as -> by (unfold weighted; apply map_ext; intro k; rewrite !filter_weight; reflexivity).
  unfold irfft. assert (LW : length (weighted l) = (length l / 2 + 1)%nat) by (unfold weighted; rewrite map_length, seq_length; reflexivity). rewrite LW.
  assert (H : (1 <= length l / 2)%nat) by (apply (Nat.div_le_mono 2 _ 2); lia). replace (2 * (length l / 2 + 1 - 1))%nat with (2 * (length l / 2))%nat by lia.
  rewrite (proj2 (Nat.eqb_neq (2 * (length l / 2)) 0)) by lia. reflexivity.
Qed.
Lemma weighted_nth l k : (k <= length l / 2)%nat -> nth k (weighted l) (0, 0) = (dft_re l k * weight (INR k / (INR (length l) * (1 / 10))), dft_im l k * weight (INR k / (INR (length l) * (1 / 10)))).
Proof.
  intro K. unfold weighted. set (f := fun k => _). rewrite (nth_indep _ (0, 0) (f 0%nat)) by (rewrite map_length, seq_length; lia). rewrite (map_nth f). rewrite seq_nth by lia. reflexivity.
Qed.
Lemma seq_1 f m : rsum (map f (List.seq 1 m)) = sumf (fun k => f (S k)) m.
Proof. unfold sumf. rewrite <- seq_shift, map_map. reflexivity. Qed.
Lemma irfft_at_sum (c : list (R * R)) h j : length c = (h + 1)%nat -> (1 <= h)%nat ->
  irfft_at c j = (fst (nth 0 c (0, 0)) + 2 * sumf (fun k => fst (nth (S k) c (0, 0)) * cos (angle (2 * h) (S k) j) - snd (nth (S k) c (0, 0)) * sin (angle (2 * h) (S k) j)) (h - 1) + fst (nth h c (0, 0)) * cos (PI * INR j)) / INR (2 * h).
Proof.
  intros L H. unfold irfft_at. cbv zeta. rewrite L. replace (h + 1 - 1)%nat with h by lia. replace (h + 1 - 2)%nat with (h - 1)%nat by lia. rewrite seq_1. reflexivity.
Qed.
Lemma rms_map (f : nat -> R) n : rms (map f (List.seq 0 n)) = sqrt (sumf (fun j => f j ^ 2) n / INR n).
Proof. unfold rms, sumf. rewrite map_map, map_length, seq_length. reflexivity. Qed.
Lemma map_seq_ext {A} (f g : nat -> A) n : (forall j, (j < n)%nat -> f j = g j) -> map f (List.seq 0 n) = map g (List.seq 0 n).
Proof. intro H. apply map_ext_in. intros j I. apply in_seq in I. apply H. lia. Qed.

(** *** Results *)
Lemma half_even h : (2 * h / 2 = h)%nat.
Proof. rewrite Nat.mul_comm. apply Nat.div_mul. lia. Qed.
Lemma rms_sinusoid A p h k : (0 < k < h)%nat ->
  acc_rms_of (map (fun j => A * cos (angle (2 * h) k j + p)) (List.seq 0 (2 * h))) = Ok (Rabs A * weight (INR k / (INR (2 * h) * (1 / 10))) / sqrt 2).
Proof.
  intros K. set (l := map _ _). set (n := (2 * h)%nat) in *. assert (LL : length l = n) by (unfold l; rewrite map_length, seq_length; reflexivity).
  assert (N : 0 < INR n) by (apply lt_0_INR; unfold n; lia). rewrite acc_rms_weighted by lia. rewrite LL. unfold n at 1. rewrite half_even. fold n. f_equal.
  set (W := weight (INR k / (INR n * (1 / 10)))).
  assert (WN : forall i, (i <= h)%nat -> nth i (weighted l) (0, 0) = if (i =? k)%nat then (A * (INR n / 2 * cos p) * W, A * (INR n / 2 * sin p) * W) else (0, 0)).
  { intros i I. rewrite weighted_nth by (rewrite LL; unfold n; rewrite half_even; exact I). rewrite LL. unfold l. rewrite dft_re_sum, dft_im_sum.
    rewrite (sum_ext (fun j => A * cos (angle n k j + p) * cos (angle n i j)) (fun j => A * (cos (angle n k j + p) * cos (angle n i j)))) by (intros; ring).
    rewrite (sum_ext (fun j => A * cos (angle n k j + p) * sin (angle n i j)) (fun j => A * (cos (angle n k j + p) * sin (angle n i j)))) by (intros; ring).
    rewrite !sum_scal, mode_cos, mode_sin by (unfold n; lia). destruct (Nat.eqb_spec i k) as [->|Ne]; f_equal; fold W; ring. }
  assert (LW : length (weighted l) = (h + 1)%nat) by (unfold weighted; rewrite map_length, seq_length, LL; unfold n; rewrite half_even; reflexivity).
  rewrite (map_seq_ext _ (fun j => A * W * cos (angle n k j + p))).
  - rewrite rms_map. rewrite (sum_ext _ (fun j => A ^ 2 * W ^ 2 / 2 * 1 + A ^ 2 * W ^ 2 / 2 * cos (angle n (2 * k) j + 2 * p))).
    + rewrite sum_plus, !sum_scal, sum_const, cos_sum_phase by (unfold n; lia).
      assert (WP : 0 <= W). { unfold W, weight. assert (F : 0 <= INR k / (INR n * (1 / 10))) by (apply Rmult_le_pos; [apply pos_INR|apply Rlt_le, Rinv_0_lt_compat; lra]). set (f := INR k / _) in *. apply Rmult_le_pos; [nra|]. apply Rlt_le, Rinv_0_lt_compat. assert (0 <= f * f) by nra. assert (0 <= f * f * f) by nra. nra. }
      replace ((A ^ 2 * W ^ 2 / 2 * (INR n * 1) + A ^ 2 * W ^ 2 / 2 * 0) / INR n) with ((A * W) ^ 2 / 2) by (field; lra).
      rewrite sqrt_div by (try lra; apply pow2_ge_0). rewrite <- Rsqr_pow2, sqrt_Rsqr_abs, Rabs_mult, (Rabs_right W) by lra. reflexivity.
    + intros j _. replace (angle n (2 * k) j + 2 * p) with (2 * (angle n k j + p)) by (rewrite <- (angle_add n k k j) || idtac; replace (2 * k)%nat with (k + k)%nat by lia; rewrite <- angle_add by (unfold n; lia); ring).
      rewrite cos_2a_cos. field.
  - intros j _. rewrite (irfft_at_sum _ h j LW ltac:(lia)). fold n. rewrite (WN 0%nat), (WN h) by lia. rewrite (proj2 (Nat.eqb_neq 0 k)), (proj2 (Nat.eqb_neq h k)) by lia. cbn [fst].
    rewrite (sum_single _ (h - 1) (k - 1)) by (try lia; intros i I Ni; rewrite (WN (S i)) by lia; rewrite (proj2 (Nat.eqb_neq (S i) k)) by lia; cbn [fst snd]; ring).
    replace (S (k - 1)) with k by lia. rewrite (WN k) by lia. rewrite Nat.eqb_refl. cbn [fst snd]. rewrite cos_plus. field. lra.
Qed.
Lemma rms_constant a n : (2 <= n)%nat -> acc_rms_of (repeat a n) = Ok (Rabs a * weight 0 * INR n / INR (2 * (n / 2))).
Proof.
  intro N. set (h := (n / 2)%nat). assert (H : (1 <= h)%nat) by (apply (Nat.div_le_mono 2 _ 2); lia). assert (HN : (2 * h <= n)%nat) by (apply Nat.mul_div_le; lia).
  assert (NP : 0 < INR n) by (apply lt_0_INR; lia). assert (HP : 0 < INR (2 * h)) by (apply lt_0_INR; lia).
  assert (E : repeat a n = map (fun _ => a) (List.seq 0 n)) by (clear; generalize 0%nat; induction n as [|n IH]; intro s; [reflexivity|]; cbn [repeat List.seq map]; rewrite (IH (S s)); reflexivity).
  rewrite E. set (l := map _ _). assert (LL : length l = n) by (unfold l; rewrite map_length, seq_length; reflexivity). rewrite acc_rms_weighted by lia. rewrite LL. fold h. f_equal.
  assert (WN : forall i, (i <= h)%nat -> nth i (weighted l) (0, 0) = if (i =? 0)%nat then (INR n * a * weight 0, 0) else (0, 0)).
  { intros i I. rewrite weighted_nth by (rewrite LL; exact I). rewrite LL. unfold l. rewrite dft_re_sum, dft_im_sum, !sum_scal. destruct (Nat.eqb_spec i 0) as [->|Ne].
    - rewrite (sum_ext _ (fun _ => 1)) by (intros j _; unfold angle; cbn [INR]; replace (2 * PI * INR j * 0 / INR n) with 0 by (field; lra); apply cos_0). rewrite (sum_ext (fun j => sin (angle n 0 j)) (fun _ => 0)) by (intros j _; unfold angle; cbn [INR]; replace (2 * PI * INR j * 0 / INR n) with 0 by (field; lra); apply sin_0).
      rewrite !sum_const. cbn [INR]. replace (0 / (INR n * (1 / 10))) with 0 by (field; lra). f_equal; ring.
    - rewrite cos_sum, sin_sum by lia. f_equal; ring. }
  assert (LW : length (weighted l) = (h + 1)%nat) by (unfold weighted; rewrite map_length, seq_length, LL; reflexivity).
  rewrite (map_seq_ext _ (fun j => a * weight 0 * INR n / INR (2 * h))).
  - rewrite rms_map, sum_const. replace (INR (2 * h) * (a * weight 0 * INR n / INR (2 * h)) ^ 2 / INR (2 * h)) with (Rsqr (a * weight 0 * INR n / INR (2 * h))) by (unfold Rsqr; field; lra).
    rewrite sqrt_Rsqr_abs. unfold Rdiv. rewrite !Rabs_mult, Rabs_inv, (Rabs_right (INR n)), (Rabs_right (INR (2 * h))) by lra. rewrite (Rabs_right (weight 0)); [reflexivity|]. unfold weight. lra.
  - intros j _. rewrite (irfft_at_sum _ h j LW H). rewrite (WN 0%nat), (WN h) by lia. cbn [Nat.eqb fst]. rewrite (proj2 (Nat.eqb_neq h 0)) by lia. cbn [fst].
    rewrite (sum_ext _ (fun _ => 0)) by (intros i I; rewrite (WN (S i)) by lia; cbn [Nat.eqb fst snd]; ring). rewrite sum_const. field. lra.
Qed.
Lemma rms_scale c l : acc_rms_of (map (Rmult c) l) = match acc_rms_of l with Ok x => Ok (Rabs c * x) | Err e => Err e end.
Proof.
  destruct (le_lt_dec 2 (length l)) as [L|L].
  - rewrite !acc_rms_weighted by (try rewrite map_length; exact L). rewrite map_length. f_equal. set (h := (length l / 2)%nat). assert (H : (1 <= h)%nat) by (apply (Nat.div_le_mono 2 _ 2); lia). assert (HP : 0 < INR (2 * h)) by (apply lt_0_INR; lia).
    assert (D : forall k, dft_re (map (Rmult c) l) k = c * dft_re l k /\ dft_im (map (Rmult c) l) k = c * dft_im l k).
    { intro k. rewrite (as_samples l). set (g := fun j => nth j l 0). set (n := length l). rewrite map_map, !dft_re_sum, !dft_im_sum. rewrite (sum_ext _ (fun j => c * (g j * cos (angle n k j)))) by (intros; ring). rewrite (sum_ext (fun j => c * g j * sin (angle n k j)) (fun j => c * (g j * sin (angle n k j)))) by (intros; ring). rewrite !sum_scal. split; ring. }
    assert (LW : forall l' : list R, length l' = length l -> length (weighted l') = (h + 1)%nat) by (intros l' E; unfold weighted; rewrite map_length, seq_length, E; reflexivity).
    assert (WN : forall i, (i <= h)%nat -> nth i (weighted (map (Rmult c) l)) (0, 0) = (c * fst (nth i (weighted l) (0, 0)), c * snd (nth i (weighted l) (0, 0)))).
    { intros i I. rewrite !weighted_nth by (try rewrite map_length; exact I). rewrite map_length. destruct (D i) as [-> ->]. cbn [fst snd]. f_equal; ring. }
    rewrite (map_seq_ext (irfft_at (weighted (map (Rmult c) l))) (fun j => c * irfft_at (weighted l) j)).
    + rewrite !rms_map. rewrite (sum_ext _ (fun j => c ^ 2 * irfft_at (weighted l) j ^ 2)) by (intros; ring). rewrite sum_scal. replace (c ^ 2 * sumf (fun j => irfft_at (weighted l) j ^ 2) (2 * h) / INR (2 * h)) with (Rsqr c * (sumf (fun j => irfft_at (weighted l) j ^ 2) (2 * h) / INR (2 * h))) by (unfold Rsqr; field; lra).
      rewrite sqrt_mult_alt by apply Rle_0_sqr. rewrite sqrt_Rsqr_abs. reflexivity.
    + intros j _. rewrite !(irfft_at_sum _ h j) by (try apply LW; try rewrite map_length; auto). rewrite (WN 0%nat), (WN h) by lia. cbn [fst].
      rewrite (sum_ext _ (fun k => c * (fst (nth (S k) (weighted l) (0, 0)) * cos (angle (2 * h) (S k) j) - snd (nth (S k) (weighted l) (0, 0)) * sin (angle (2 * h) (S k) j)))) by (intros i I; rewrite (WN (S i)) by lia; cbn [fst snd]; ring). rewrite sum_scal. field. lra.
  - destruct l as [|a [|b l]]; [reflexivity|reflexivity|cbn in L; lia].
Qed.
Lemma rms_defined l : (exists x, acc_rms_of l = Ok x) <-> (2 <= length l)%nat.
Proof. split; [|intro L; rewrite acc_rms_weighted by exact L; eexists; reflexivity]. intros (x & E). destruct l as [|a [|b l]]; [discriminate|discriminate|cbn; lia]. Qed.

(** The samples in the window. *)
Lemma full_window {U} (s : SeqModel.seq U) lo hi : WF s -> get_start s = Ok lo -> get_end s = Ok hi -> filter (fun tv => qleb lo (fst tv) && qleb (fst tv) hi) (iter s) = iter s.
Proof.
  intros W A B. apply get_start_nth in A. apply get_end_iff in B. assert (F : forall (f : Qc * U -> bool) l, (forall p, In p l -> f p = true) -> filter f l = l) by (clear; intros f l H; induction l as [|x l IH]; [reflexivity|]; cbn; rewrite H by (left; reflexivity); f_equal; apply IH; intros p I; apply H; right; exact I).
  apply F. intros p J. assert (J' : In (fst p) (tss s)) by (rewrite <- (iter_fst s W); apply in_map; exact J). apply In_nth_error in J' as (i & J'). assert (i < length (tss s))%nat by (apply nth_error_Some; congruence).
  apply andb_true_iff. split; apply qleb_le; [apply (Inc_le_nth (tss s) 0 i lo (fst p)); [apply W|exact A|exact J'|lia]|apply (Inc_le_nth (tss s) i (length (tss s) - 1) (fst p) hi); [apply W|exact J'|exact B|lia]].
Qed.
Lemma acc_rms_full {U} (acc : U -> R) (s : SeqModel.seq U) : WF s -> tss s <> [] -> get_acc_rms acc s (None, None) = acc_rms_of (map acc (vals s)).
Proof.
  intros W N. unfold get_acc_rms. cbn [fst snd]. destruct (get_start s) as [lo|e] eqn:A; [|unfold get_start in A; destruct (tss s); [contradiction|discriminate]].
  destruct (get_end s) as [hi|e] eqn:B; [|unfold get_end in B; destruct (rev (tss s)) eqn:R; [apply (f_equal (@rev _)) in R; rewrite rev_involutive in R; contradiction|discriminate]].
  cbn [LaneModel.bind]. rewrite (full_window s lo hi W A B). f_equal. rewrite <- (map_map snd acc), iter_snd by exact W. reflexivity.
Qed.
