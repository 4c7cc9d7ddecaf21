(** Lemmas on decimals. *)
From Coq Require Import QArith Qcanon Qpower ZArith Znumtheory Zpow_facts List Bool Arith Lia.
From Verif Require Import Base Num SimulatorModel SimulatorSpec DecModel DecSpec.
Open Scope Qc_scope.

Lemma Qc_eq (a b : Qc) : (this a == this b)%Q -> a = b.
Proof. apply Qc_is_canon. Qed.
Lemma this_mult (a b : Qc) : (this (a * b) == this a * this b)%Q.
Proof. apply Qred_correct. Qed.
Lemma this_plus (a b : Qc) : (this (a + b) == this a + this b)%Q.
Proof. apply Qred_correct. Qed.
Lemma this_Q2Qc q : (this (Q2Qc q) == q)%Q.
Proof. apply Qred_correct. Qed.

Lemma qz_mult a b : qz (a * b) = qz a * qz b.
Proof. apply Qc_eq. unfold qz. rewrite this_mult, !this_Q2Qc, inject_Z_mult. reflexivity. Qed.
Lemma qz_plus a b : qz (a + b) = qz a + qz b.
Proof. apply Qc_eq. unfold qz. rewrite this_plus, !this_Q2Qc, inject_Z_plus. reflexivity. Qed.
Lemma qz_opp a : qz (- a) = - qz a.
Proof. apply Qc_eq. unfold qz, Qcopp. rewrite !this_Q2Qc, inject_Z_opp. reflexivity. Qed.
Lemma qz_le a b : qz a <= qz b <-> (a <= b)%Z.
Proof. unfold Qcle, qz. rewrite !this_Q2Qc. rewrite Zle_Qle. reflexivity. Qed.

Lemma pow10_plus a b : pow10 (a + b) = pow10 a * pow10 b.
Proof. apply Qc_eq. unfold pow10. rewrite this_mult, !this_Q2Qc. apply Qpower_plus. discriminate. Qed.
Lemma pow10_Z k : (0 <= k)%Z -> pow10 k = qz (10 ^ k).
Proof. intro H. apply Qc_eq. unfold pow10, qz. rewrite !this_Q2Qc. symmetry. apply Zpower_Qpower. exact H. Qed.
Lemma Qpow_pos k : (0 < Qpower (10 # 1) k)%Q.
Proof.
  assert (P : forall n, (0 <= n)%Z -> (0 < Qpower (10 # 1) n)%Q).
  { intros n H. assert (E := Zpower_Qpower 10 n H). change (inject_Z 10) with (10 # 1)%Q in E. apply (Qlt_le_trans _ (inject_Z (10 ^ n))); [|rewrite E; apply Qle_refl].
    assert (X : (inject_Z 0 < inject_Z (10 ^ n))%Q) by (rewrite <- Zlt_Qlt; apply Z.pow_pos_nonneg; lia). exact X. }
  destruct (Z.le_gt_cases 0 k) as [H|H]; [apply P; exact H|]. replace k with (- - k)%Z by lia. rewrite Qpower_opp. apply Qinv_lt_0_compat. apply P. lia.
Qed.
Lemma pow10_pos k : 0 < pow10 k.
Proof. unfold Qclt, pow10. apply (Qlt_le_trans _ (Qpower (10 # 1) k)); [apply Qpow_pos|]. rewrite this_Q2Qc. apply Qle_refl. Qed.

Lemma value_shift c e k : (0 <= k)%Z -> value (c * 10 ^ k) (e - k) = value c e.
Proof. intro H. unfold value. rewrite qz_mult, <- pow10_Z by exact H. rewrite <- Qcmult_assoc, <- pow10_plus. f_equal. f_equal. lia. Qed.
Lemma value_at c e m : (m <= e)%Z -> value c e = value (c * 10 ^ (e - m)) m.
Proof. intro H. rewrite <- (value_shift c e (e - m)) by lia. f_equal. lia. Qed.
Lemma value_plus a b e : value a e + value b e = value (a + b) e.
Proof. unfold value. rewrite qz_plus. ring. Qed.
Lemma value_opp a e : - value a e = value (- a) e.
Proof. unfold value. rewrite qz_opp. ring. Qed.
Lemma value_le a b e : value a e <= value b e <-> (a <= b)%Z.
Proof.
  unfold value. rewrite <- qz_le. split; intro H.
  - destruct (Qclt_le_dec (qz b) (qz a)) as [L|L]; [|exact L]. exfalso. apply (Qcle_not_lt _ _ H). apply Qcmult_lt_compat_r; [apply pow10_pos|exact L].
  - apply Qcmult_le_compat_r; [exact H|apply Qclt_le_weak, pow10_pos].
Qed.
Lemma value_inj a b e : value a e = value b e <-> a = b.
Proof. split; [|intros ->; reflexivity]. intro H. apply Z.le_antisymm; apply (value_le _ _ e); rewrite H; apply Qcle_refl. Qed.
Lemma value_0 e : value 0 e = 0.
Proof. unfold value. change (qz 0) with (Q2Qc 0). ring. Qed.
Lemma value_abs a e : qabs (value a e) = value (Z.abs a) e.
Proof.
  unfold qabs. destruct (qltb (value a e) 0) eqn:E.
  - apply qltb_lt in E. rewrite value_opp. f_equal. destruct (Z.le_gt_cases 0 a) as [H|H]; [|lia]. exfalso. apply (value_le _ _ e) in H. rewrite value_0 in H. exact (Qcle_not_lt _ _ H E).
  - apply qltb_ge in E. f_equal. rewrite <- (value_0 e) in E. apply value_le in E. lia.
Qed.

(** The number of digits. *)
Lemma ndigits_fuel_ok f : forall c, (0 <= c)%Z -> (c < 2 ^ Z.of_nat f)%Z -> (0 <= ndigits_fuel f c)%Z /\ (c < 10 ^ ndigits_fuel f c)%Z /\ (0 < c -> 0 < ndigits_fuel f c /\ 10 ^ (ndigits_fuel f c - 1) <= c)%Z.
Proof.
  induction f as [|f IH]; intros c H0 H; [cbn in *; lia|]. cbn [ndigits_fuel]. destruct (Z.ltb_spec c 1) as [L|L]; [cbn; lia|].
  assert (D : (c / 10 < 2 ^ Z.of_nat f)%Z).
  { apply Z.div_lt_upper_bound; [lia|]. replace (Z.of_nat (S f)) with (Z.succ (Z.of_nat f)) in H by lia. rewrite Z.pow_succ_r in H by lia. nia. }
  destruct (IH (c / 10)%Z ltac:(apply Z.div_pos; lia) D) as (I0 & I1 & I2). set (n := ndigits_fuel f (c / 10)) in *.
  assert (M := Z.div_mod c 10 ltac:(lia)). assert (Mb := Z.mod_pos_bound c 10 ltac:(lia)).
  split; [lia|]. split; [replace (1 + n)%Z with (Z.succ n) by lia; rewrite Z.pow_succ_r by exact I0; lia|]. intros _. split; [lia|]. replace (1 + n - 1)%Z with n by lia.
  destruct (Z.le_gt_cases (c / 10) 0) as [Z0|Z0].
  - assert (E : (c / 10 = 0)%Z) by (assert (0 <= c / 10)%Z by (apply Z.div_pos; lia); lia). unfold n. rewrite E. destruct f; cbn; lia.
  - destruct (I2 Z0) as [I3 I4]. replace n with (Z.succ (n - 1)) by lia. rewrite Z.pow_succ_r by lia. lia.
Qed.
Lemma ndigits_ok c : (0 <= ndigits c)%Z /\ (Z.abs c < 10 ^ ndigits c)%Z /\ (c <> 0 -> 0 < ndigits c /\ 10 ^ (ndigits c - 1) <= Z.abs c)%Z.
Proof.
  unfold ndigits. destruct (ndigits_fuel_ok (S (Z.to_nat (Z.log2 (Z.abs c)))) (Z.abs c)) as (A & B & C); [lia| |].
  - destruct (Z.eq_dec c 0) as [->|N]; [reflexivity|]. pose proof (Z.log2_spec (Z.abs c) ltac:(lia)) as [_ L]. pose proof (Z.log2_nonneg (Z.abs c)). replace (Z.of_nat (S (Z.to_nat (Z.log2 (Z.abs c))))) with (Z.succ (Z.log2 (Z.abs c))) by lia. exact L.
  - split; [exact A|]. split; [exact B|]. intro N. apply C. lia.
Qed.
Lemma ndigits_small c : (Z.abs c < 10 ^ 28)%Z <-> (ndigits c <= prec)%Z.
Proof.
  destruct (ndigits_ok c) as (A & B & C). unfold prec. split; intro H.
  - destruct (Z.eq_dec c 0) as [->|N]; [vm_compute; discriminate|]. destruct (C N) as [C1 C2]. destruct (Z.le_gt_cases (ndigits c) 28) as [L|L]; [exact L|]. exfalso.
    assert (10 ^ 28 <= 10 ^ (ndigits c - 1))%Z by (apply Z.pow_le_mono_r; lia). lia.
  - assert (10 ^ ndigits c <= 10 ^ 28)%Z by (apply Z.pow_le_mono_r; lia). lia.
Qed.

(** Rounding to an integer. *)
Lemma half_even_near c d : (0 <= c)%Z -> (0 < d)%Z -> let q := half_even c d in (2 * Z.abs (q * d - c) <= d)%Z /\ (2 * Z.abs (q * d - c) = d -> Z.even q = true)%Z /\ (c / d <= q <= c / d + 1)%Z.
Proof.
  intros Hc Hd. cbv zeta. unfold half_even. assert (M := Z.div_mod c d ltac:(lia)). assert (B := Z.mod_pos_bound c d Hd). set (q := (c / d)%Z) in *. set (r := (c mod d)%Z) in *.
  destruct (Z.compare_spec (2 * r) d) as [E|E|E].
  - destruct (Z.even q) eqn:Ev; (split; [lia|]); split; try lia; intro; [exact Ev|]. rewrite Z.add_comm, Z.even_add, Ev. reflexivity.
  - split; [lia|]. split; [|lia]. lia.
  - split; [lia|]. split; [|lia]. lia.
Qed.
Lemma pow_split a b : (0 <= b)%Z -> (b <= a)%Z -> (10 ^ a = 10 ^ (a - b) * 10 ^ b)%Z.
Proof. intros H L. rewrite <- Z.pow_add_r by lia. f_equal. lia. Qed.

(** What [fix_] does. *)
Lemma fix_cases c e : exists c' e', fix_ c e = DNum c' e' /\
  ((Z.abs c < 10 ^ 28)%Z /\ c' = c /\ e' = e \/
   (exists k h, (0 < k /\ e' = e + k /\ c' = Z.sgn c * h /\ 10 ^ 27 * 10 ^ k <= Z.abs c < 10 ^ 28 * 10 ^ k /\ 10 ^ 27 <= h <= 10 ^ 28 /\
      2 * Z.abs (h * 10 ^ k - Z.abs c) <= 10 ^ k /\ (2 * Z.abs (h * 10 ^ k - Z.abs c) = 10 ^ k -> Z.even h = true) /\ exists q, 10 ^ 27 <= q /\ q * 10 ^ k <= Z.abs c /\ Z.abs c < (q + 1) * 10 ^ k /\ (h = q \/ h = q + 1)))%Z).
Proof.
  unfold fix_. destruct (Z.leb_spec (ndigits c - prec) 0) as [L|L].
  - exists c, e. split; [reflexivity|]. left. split; [apply ndigits_small; lia|]. auto.
  - set (k := (ndigits c - prec)%Z) in *. exists (Z.sgn c * half_even (Z.abs c) (10 ^ k))%Z, (e + k)%Z. split; [reflexivity|]. right.
    assert (Hk : (0 < 10 ^ k)%Z) by (apply Z.pow_pos_nonneg; lia). destruct (ndigits_ok c) as (D1 & D2 & D3). assert (N : c <> 0%Z) by (intros ->; vm_compute in L; discriminate). destruct (D3 N) as [D4 D5].
    destruct (half_even_near (Z.abs c) (10 ^ k) ltac:(lia) Hk) as (H1 & H2 & H3). set (h := half_even (Z.abs c) (10 ^ k)) in *.
    assert (E1 : (10 ^ 27 * 10 ^ k = 10 ^ (ndigits c - 1))%Z) by (rewrite <- Z.pow_add_r by lia; f_equal; unfold k, prec; lia).
    assert (E2 : (10 ^ 28 * 10 ^ k = 10 ^ ndigits c)%Z) by (rewrite <- Z.pow_add_r by lia; f_equal; unfold k, prec; lia).
    assert (M := Z.div_mod (Z.abs c) (10 ^ k) ltac:(lia)). assert (B := Z.mod_pos_bound (Z.abs c) (10 ^ k) Hk). set (q := (Z.abs c / 10 ^ k)%Z) in *. set (r := (Z.abs c mod 10 ^ k)%Z) in *.
    assert (Q1 : (10 ^ 27 <= q)%Z) by (apply Z.div_le_lower_bound; [exact Hk|]; rewrite Z.mul_comm, E1; exact D5).
    assert (Q2 : (q < 10 ^ 28)%Z) by (apply Z.div_lt_upper_bound; [exact Hk|]; rewrite Z.mul_comm, E2; exact D2).
    exists k, h. split; [lia|]. split; [reflexivity|]. split; [reflexivity|]. split; [lia|]. split; [lia|]. split; [exact H1|]. split; [exact H2|]. exists q. split; [exact Q1|]. split; [nia|]. split; [nia|lia].
Qed.

Lemma sgn_dist c x : c <> 0%Z -> (Z.abs (Z.sgn c * x - c) = Z.abs (x - Z.abs c))%Z.
Proof. intro N. destruct (Z.sgn_spec c) as [[H ->]|[[H ->]|[H ->]]]; lia. Qed.

Lemma fix_nearest c e z k : (Z.abs z < 10 ^ 28)%Z -> exists c' e', fix_ c e = DNum c' e' /\ qabs (value c' e' - value c e) <= qabs (value z k - value c e) /\
  (qabs (value c' e' - value c e) = qabs (value z k - value c e) -> value z k <> value c' e' -> Z.even c' = true).
Proof.
  intro Hz. destruct (fix_cases c e) as (c' & e' & E & [(_ & -> & ->)|(d & h & Hd & -> & -> & Rc & Rh & Near & Tie & q & Q1 & Q2 & Q3 & Q4)]).
  - exists c, e. split; [exact E|]. set (m := Z.min e k). rewrite (value_at c e m), (value_at z k m) by lia. unfold Qcminus. rewrite !value_opp, !value_plus, !value_abs, value_le, !value_inj. split; [lia|]. intros. lia.
  - exists (Z.sgn c * h)%Z, (e + d)%Z. split; [exact E|]. set (m := Z.min e k). rewrite (value_at c e m), (value_at z k m), (value_at (Z.sgn c * h) (e + d) m) by lia. unfold Qcminus. rewrite !value_opp, !value_plus, !value_abs, value_le, !value_inj.
    assert (Nc : c <> 0%Z) by (intros ->; clear - Rc Hd; assert (0 < 10 ^ d)%Z by (apply Z.pow_pos_nonneg; lia); lia).
    set (F := (10 ^ (e - m))%Z). assert (HF : (0 < F)%Z) by (apply Z.pow_pos_nonneg; lia). set (D := (10 ^ d)%Z) in *. assert (HD : (0 < D)%Z) by (apply Z.pow_pos_nonneg; lia).
    assert (EU : (10 ^ (e + d - m) = D * F)%Z) by (unfold D, F; rewrite <- Z.pow_add_r by lia; f_equal; lia). rewrite EU.
    assert (Res : (Z.abs (Z.sgn c * h * (D * F) + - (c * F)) = Z.abs (h * D - Z.abs c) * F)%Z).
    { replace (Z.sgn c * h * (D * F) + - (c * F))%Z with ((Z.sgn c * h * D - c) * F)%Z by ring. rewrite Z.abs_mul, (Z.abs_eq F) by lia. f_equal. rewrite <- Z.mul_assoc. apply sgn_dist. exact Nc. }
    set (x := (z * 10 ^ (k - m))%Z).
    destruct (Z.le_gt_cases (e + d) k) as [L|L].
    + assert (Ex : exists j, x = (j * (D * F))%Z) by (exists (z * 10 ^ (k - (e + d)))%Z; unfold x; rewrite <- EU, <- Z.mul_assoc, <- Z.pow_add_r by lia; f_equal; f_equal; lia).
      destruct Ex as [j Ej]. rewrite Ej. rewrite Res.
      assert (Oth : (Z.abs (j * (D * F) + - (c * F)) = Z.abs (j * D - c) * F)%Z) by (replace (j * (D * F) + - (c * F))%Z with ((j * D - c) * F)%Z by ring; rewrite Z.abs_mul, (Z.abs_eq F) by lia; reflexivity).
      rewrite Oth. destruct (Z.eq_dec j (Z.sgn c * h)) as [->|Nj].
      { replace (Z.abs (Z.sgn c * h * D - c)) with (Z.abs (h * D - Z.abs c)) by (rewrite <- Z.mul_assoc, sgn_dist by exact Nc; reflexivity). split; [apply Z.le_refl|]. intros _ X. congruence. }
      assert (Far : (D <= 2 * Z.abs (j * D - c))%Z).
      { assert (G : (D <= Z.abs (j * D - Z.sgn c * h * D))%Z) by (replace (j * D - Z.sgn c * h * D)%Z with ((j - Z.sgn c * h) * D)%Z by ring; rewrite Z.abs_mul, (Z.abs_eq D) by lia; rewrite <- (Z.mul_1_l D) at 1; apply Z.mul_le_mono_nonneg_r; [lia|]; clear - Nj; lia).
        assert (G2 : (Z.abs (Z.sgn c * h * D - c) = Z.abs (h * D - Z.abs c))%Z) by (rewrite <- Z.mul_assoc; apply sgn_dist; exact Nc). clear - G G2 Near. lia. }
      split; [apply Z.mul_le_mono_nonneg_r; [lia|]; clear - Far Near; lia|]. intros Eq _. apply Z.mul_reg_r in Eq; [|lia]. rewrite Z.even_mul. rewrite Tie by (clear - Eq Far Near; lia). apply orb_true_r.
    + assert (Small : (Z.abs x <= 10 ^ 27 * (D * F) - 1)%Z).
      { unfold x. rewrite Z.abs_mul, (Z.abs_eq (10 ^ (k - m))) by (apply Z.pow_nonneg; lia). rewrite <- EU. assert (P := pow_split (e + d - m) (k - m) ltac:(lia) ltac:(lia)). rewrite P. assert (0 < 10 ^ (k - m))%Z by (apply Z.pow_pos_nonneg; lia).
        assert (10 ^ 1 <= 10 ^ (e + d - m - (k - m)))%Z by (apply Z.pow_le_mono_r; lia). change (10 ^ 28)%Z with (10 ^ 27 * 10)%Z in Hz. set (G := (10 ^ (k - m))%Z) in *. set (J := (10 ^ (e + d - m - (k - m)))%Z) in *. set (T := (10 ^ 27)%Z) in *.
        assert (0 < T)%Z by reflexivity. clearbody G J T. change (10 ^ 1)%Z with 10%Z in *. assert (Z.abs z * G <= (T * 10 - 1) * G)%Z by (apply Z.mul_le_mono_nonneg_r; lia). assert (T * (10 * G) <= T * (J * G))%Z by (apply Z.mul_le_mono_nonneg_l; [lia|]; apply Z.mul_le_mono_nonneg_r; lia). lia. }
      assert (Big : (q * D * F <= Z.abs (c * F))%Z) by (rewrite Z.abs_mul, (Z.abs_eq F) by lia; apply Z.mul_le_mono_nonneg_r; lia).
      assert (Qb : (10 ^ 27 * (D * F) <= q * D * F)%Z) by (rewrite (Z.mul_assoc _ D F); apply Z.mul_le_mono_nonneg_r; [lia|]; apply Z.mul_le_mono_nonneg_r; [lia|exact Q1]).
      assert (Dist : (Z.abs (h * D - Z.abs c) * F <= Z.abs (c * F) - q * D * F)%Z).
      { rewrite Z.abs_mul, (Z.abs_eq F) by lia. replace (Z.abs c * F - q * D * F)%Z with ((Z.abs c - q * D) * F)%Z by ring. apply Z.mul_le_mono_nonneg_r; [lia|]. clear - Q2 Q3 Q4 Near HD. destruct Q4 as [->| ->]; lia. }
      rewrite Res. clear - Small Big Qb Dist. split; lia.
Qed.

(** Every decimal has a sum. *)
Lemma fix_num c e : exists c' e', fix_ c e = DNum c' e'.
Proof. unfold fix_. destruct (Z.leb _ _); eauto. Qed.
Lemma fix_short c e : exists c' e', fix_ c e = DNum c' e' /\ short (value c' e').
Proof.
  destruct (fix_cases c e) as (c' & e' & E & [(L & -> & ->)|(d & h & Hd & -> & -> & _ & Rh & _)]); [exists c, e|exists (Z.sgn c * h)%Z, (e + d)%Z]; (split; [exact E|]).
  - exists c, e. split; [exact L|reflexivity].
  - destruct (Z.eq_dec h (10 ^ 28)) as [->|N].
    + exists (Z.sgn c * 10 ^ 27)%Z, (e + d + 1)%Z. split.
      * rewrite Z.abs_mul. assert (Z.abs (Z.sgn c) <= 1)%Z by (destruct (Z.sgn_spec c) as [[H ->]|[[H ->]|[H ->]]]; discriminate). change (Z.abs (10 ^ 27)) with (10 ^ 27)%Z. apply (Z.le_lt_trans _ (1 * 10 ^ 27)); [apply Z.mul_le_mono_nonneg_r; [discriminate|exact H]|reflexivity].
      * change (value (Z.sgn c * 10 ^ 28) (e + d) = value (Z.sgn c * 10 ^ 27) (e + d + 1)). rewrite (value_at _ (e + d + 1) (e + d)) by lia. f_equal. replace (e + d + 1 - (e + d))%Z with 1%Z by lia. rewrite <- Z.mul_assoc. f_equal.
    + exists (Z.sgn c * h)%Z, (e + d)%Z. split; [|reflexivity]. rewrite Z.abs_mul. assert (Z.abs (Z.sgn c) <= 1)%Z by (destruct (Z.sgn_spec c) as [[H ->]|[[H ->]|[H ->]]]; discriminate). destruct Rh as [R1 R2].
      apply (Z.le_lt_trans _ (1 * Z.abs h)); [apply Z.mul_le_mono_nonneg_r; [apply Z.abs_nonneg|exact H]|]. rewrite Z.mul_1_l. rewrite Z.abs_eq by (apply (Z.le_trans _ (10 ^ 27)); [discriminate|exact R1]). clear - N R2. lia.
Qed.

(** Other forms of the same number. *)
Lemma half_even_scale c d f : (0 < d)%Z -> (0 < f)%Z -> half_even (c * f) (d * f) = half_even c d.
Proof.
  intros Hd Hf. unfold half_even. rewrite Z.div_mul_cancel_r by lia. rewrite Z.mul_mod_distr_r by lia.
  replace (2 * (c mod d * f))%Z with (2 * (c mod d) * f)%Z by ring.
  assert (E : Z.compare (2 * (c mod d) * f) (d * f) = Z.compare (2 * (c mod d)) d) by (symmetry; apply Zmult_compare_compat_r; lia). rewrite E. reflexivity.
Qed.
Lemma half_even_exact c d : (0 < d)%Z -> half_even (c * d) d = c.
Proof. intro H. unfold half_even. rewrite Z.div_mul, Z.mod_mul by lia. destruct (Z.compare_spec (2 * 0) d); [lia|reflexivity|lia]. Qed.
Lemma ndigits_unique c n : (0 < n)%Z -> (10 ^ (n - 1) <= Z.abs c < 10 ^ n)%Z -> ndigits c = n.
Proof.
  intros Hn [H1 H2]. destruct (ndigits_ok c) as (A & B & C). assert (N : c <> 0%Z) by (assert (0 < 10 ^ (n - 1))%Z by (apply Z.pow_pos_nonneg; lia); lia). destruct (C N) as [C1 C2].
  destruct (Z.lt_trichotomy (ndigits c) n) as [L|[L|L]]; [|exact L|].
  - assert (10 ^ ndigits c <= 10 ^ (n - 1))%Z by (apply Z.pow_le_mono_r; lia). lia.
  - assert (10 ^ n <= 10 ^ (ndigits c - 1))%Z by (apply Z.pow_le_mono_r; lia). lia.
Qed.
Lemma ndigits_scale c n : (0 <= n)%Z -> c <> 0%Z -> (ndigits (c * 10 ^ n) = ndigits c + n)%Z.
Proof.
  intros Hn N. destruct (ndigits_ok c) as (A & B & C). destruct (C N) as [C1 C2]. assert (P : (0 < 10 ^ n)%Z) by (apply Z.pow_pos_nonneg; lia). apply ndigits_unique; [lia|]. rewrite Z.abs_mul, (Z.abs_eq (10 ^ n)) by lia.
  replace (ndigits c + n - 1)%Z with ((ndigits c - 1) + n)%Z by lia. rewrite !Z.pow_add_r by lia. split; [apply Z.mul_le_mono_nonneg_r; lia|apply Z.mul_lt_mono_pos_r; lia].
Qed.
Definition num_value (x : decimal) : Qc := match x with DNum c e => value c e | _ => 0 end.
Lemma fix_scale c e n : (0 <= n)%Z -> num_value (fix_ (c * 10 ^ n) (e - n)) = num_value (fix_ c e).
Proof.
  intro Hn. destruct (Z.eq_dec c 0) as [->|N].
  { rewrite Z.mul_0_l. unfold fix_. change (Z.leb (ndigits 0 - prec) 0) with true. cbn [num_value]. rewrite !value_0. reflexivity. }
  assert (P : (0 < 10 ^ n)%Z) by (apply Z.pow_pos_nonneg; lia). unfold fix_. rewrite ndigits_scale by assumption. set (k := (ndigits c - prec)%Z). replace (ndigits c + n - prec)%Z with (k + n)%Z by (unfold k; lia).
  rewrite Z.abs_mul, (Z.abs_eq (10 ^ n)) by lia. replace (Z.sgn (c * 10 ^ n)) with (Z.sgn c) by (rewrite Z.sgn_mul, (Z.sgn_pos (10 ^ n)) by lia; lia).
  destruct (Z.leb_spec (k + n) 0) as [L|L]; destruct (Z.leb_spec k 0) as [L'|L']; cbn [num_value].
  - apply value_shift. exact Hn.
  - lia.
  - (* only zeros are dropped *)
    rewrite (pow_split n (k + n)) by lia. rewrite Z.mul_assoc, half_even_exact by (apply Z.pow_pos_nonneg; lia). rewrite Z.mul_assoc, (Z.mul_comm (Z.sgn c)), Z.abs_sgn. replace (e - n + (k + n))%Z with (e - (n - (k + n)))%Z by lia. apply value_shift. lia.
  - rewrite Z.pow_add_r by lia. rewrite half_even_scale by (try apply Z.pow_pos_nonneg; lia). f_equal. lia.
Qed.
Lemma fix_form c e c' e' : value c e = value c' e' -> num_value (fix_ c e) = num_value (fix_ c' e').
Proof.
  intro H. set (m := Z.min e e'). rewrite (value_at c e m), (value_at c' e' m) in H by lia. apply value_inj in H.
  rewrite <- (fix_scale c e (e - m)), <- (fix_scale c' e' (e' - m)), H by lia. f_equal. f_equal. lia.
Qed.

(** Reading numbers as decimals. *)
Lemma ten_power n : forall a, (0 < a)%Z -> (Z.to_nat a <= n)%nat -> forall k, (0 <= k)%Z -> (a | 10 ^ k)%Z -> (a | 10 ^ Z.succ (Z.log2 a))%Z.
Proof.
  induction n as [|n IH]; intros a Ha Hn k Hk D; [lia|]. destruct (Z.eq_dec a 1) as [->|N1]; [apply Z.divide_1_l|].
  set (g := Z.gcd a 10). assert (Hg0 : (0 <= g)%Z) by apply Z.gcd_nonneg. assert (Dg : (g | a)%Z) by apply Z.gcd_divide_l. assert (Dg10 : (g | 10)%Z) by apply Z.gcd_divide_r.
  assert (Hg : (2 <= g)%Z).
  { destruct (Z.eq_dec g 0) as [E0|E0]; [apply Z.gcd_eq_0_l in E0; lia|]. destruct (Z.eq_dec g 1) as [E1|E1]; [|lia]. exfalso.
    assert (R : rel_prime a (10 ^ k)) by (apply rel_prime_Zpower_r; [exact Hk|apply Zgcd_1_rel_prime; exact E1]).
    apply Zgcd_1_rel_prime in R. apply Z.divide_gcd_iff in D; lia. }
  destruct Dg as [b Eb]. assert (Hb : (0 < b)%Z) by nia. assert (Hlt : (b < a)%Z) by nia.
  assert (Db : (b | 10 ^ k)%Z) by (apply (Z.divide_trans _ a); [exists g; lia|exact D]).
  assert (I := IH b Hb ltac:(lia) k Hk Db).
  assert (L : (Z.succ (Z.log2 b) <= Z.log2 a)%Z) by (rewrite <- Z.log2_double by exact Hb; apply Z.log2_le_mono; nia).
  replace (Z.succ (Z.log2 a)) with (1 + (Z.log2 a - Z.succ (Z.log2 b)) + Z.succ (Z.log2 b))%Z by lia. pose proof (Z.log2_nonneg b). rewrite Z.pow_add_r, Z.pow_add_r by lia. change (10 ^ 1)%Z with 10%Z.
  destruct Dg10 as [u Eu], I as [v Ev]. rewrite Ev. set (P := (10 ^ (Z.log2 a - Z.succ (Z.log2 b)))%Z). exists (u * P * v)%Z. rewrite Eb, Eu. ring.
Qed.
Lemma to_dec_ok c e : num_value (to_dec (value c e)) = value c e.
Proof.
  set (q := value c e). unfold to_dec. set (a := QDen (this q)). set (k := Z.succ (Z.log2 a)). cbn [num_value].
  assert (Ha : (0 < a)%Z) by apply Pos2Z.is_pos.
  assert (D : (a | Qnum (this q) * 10 ^ k)%Z).
  { (* the denominator divides a power of ten *)
    assert (Dk : exists n, (0 <= n)%Z /\ (a | 10 ^ n)%Z).
    { exists (Z.max 0 (- e)). split; [lia|]. set (n := Z.max 0 (- e)). assert (Hn : (0 <= e + n)%Z) by lia.
      assert (E : q * qz (10 ^ n) = qz (c * 10 ^ (e + n))).
      { unfold q, value. rewrite <- pow10_Z by lia. rewrite <- Qcmult_assoc, <- pow10_plus, pow10_Z by exact Hn. rewrite qz_mult. reflexivity. }
      assert (E' : (this q * inject_Z (10 ^ n) == inject_Z (c * 10 ^ (e + n)))%Q).
      { assert (X := f_equal this E). assert (X' : (this (q * qz (10 ^ n)) == this (qz (c * 10 ^ (e + n))))%Q) by (rewrite X; reflexivity). rewrite this_mult in X'. unfold qz in X'. rewrite !this_Q2Qc in X'. exact X'. }
      unfold Qeq in E'. cbn in E'. rewrite !Pos.mul_1_r, !Z.mul_1_r in E'. fold a in E'.
      assert (G : Z.gcd a (Qnum (this q)) = 1%Z).
      { destruct (this q) as [u v] eqn:Eq. unfold a. rewrite Z.gcd_comm. cbn. assert (C := canon q). rewrite Eq in C. apply Qred_iff in C. exact C. }
      apply (Z.gauss _ (Qnum (this q))); [|exact G]. exists (c * 10 ^ (e + n))%Z. exact E'. }
    destruct Dk as (n & Hn & D). apply Z.divide_mul_r. exact (ten_power (Z.to_nat a) a Ha (le_n _) n Hn D). }
  destruct D as [x Ex]. rewrite Ex, Z.div_mul by lia. apply Qc_eq. unfold value. rewrite this_mult. unfold qz, pow10. rewrite !this_Q2Qc.
  assert (Hk : (0 <= k)%Z) by (unfold k; pose proof (Z.log2_nonneg a); lia). rewrite Qpower_opp. rewrite <- (Zpower_Qpower 10 k Hk : (inject_Z (10 ^ k) == (10 # 1) ^ k)%Q).
  assert (P : (0 < 10 ^ k)%Z) by (apply Z.pow_pos_nonneg; lia).
  rewrite <- (Qdiv_mult_l (this q) (inject_Z (10 ^ k))) by (intro X; unfold Qeq in X; cbn in X; lia). unfold Qdiv. apply Qmult_comp; [|reflexivity]. clearbody q. unfold Qeq. cbn. rewrite Pos.mul_1_r, Z.mul_1_r. fold a. lia.
Qed.

(** Sums of the numbers of SimulatorModel.v are those of decimals. *)
Lemma to_dec_num q : exists c e, to_dec q = DNum c e.
Proof. unfold to_dec. eauto. Qed.
Lemma dec_add_form a i b j a' i' b' j' : value a i = value a' i' -> value b j = value b' j' -> dec_value (dec_add (DNum a i) (DNum b j)) = dec_value (dec_add (DNum a' i') (DNum b' j')).
Proof.
  intros A B. unfold dec_add. cbv zeta. set (m := Z.min i j). set (m' := Z.min i' j').
  assert (F := fix_form (a * 10 ^ (i - m) + b * 10 ^ (j - m)) m (a' * 10 ^ (i' - m') + b' * 10 ^ (j' - m')) m').
  change (num_value (fix_ (a * 10 ^ (i - m) + b * 10 ^ (j - m)) m) = num_value (fix_ (a' * 10 ^ (i' - m') + b' * 10 ^ (j' - m')) m')). apply F. rewrite <- !value_plus, <- !value_at by lia. rewrite A, B. reflexivity.
Qed.
Lemma dplus_ok a i b j : dplus (value a i) (value b j) = dec_value (dec_add (DNum a i) (DNum b j)).
Proof.
  unfold dplus. assert (A := to_dec_ok a i). assert (B := to_dec_ok b j). destruct (to_dec_num (value a i)) as (x & y & E) in *. destruct (to_dec_num (value b j)) as (x' & y' & E') in *. rewrite E, E' in *. apply dec_add_form; assumption.
Qed.
Lemma dminus_ok a i b j : dminus (value a i) (value b j) = dec_value (dec_sub (DNum a i) (DNum b j)).
Proof.
  unfold dminus, dec_sub. assert (A := to_dec_ok a i). assert (B := to_dec_ok b j). destruct (to_dec_num (value a i)) as (x & y & E) in *. destruct (to_dec_num (value b j)) as (x' & y' & E') in *. rewrite E, E' in *. cbn [num_value dec_neg] in *. apply dec_add_form; [assumption|]. rewrite <- !value_opp, B. reflexivity.
Qed.
Lemma exact_sum a i b j : let e := Z.min i j in (Z.abs (a * 10 ^ (i - e) + b * 10 ^ (j - e)) < 10 ^ 28)%Z ->
  dec_add (DNum a i) (DNum b j) = Ok (DNum (a * 10 ^ (i - e) + b * 10 ^ (j - e)) e).
Proof. cbv zeta. intro H. unfold dec_add. cbv zeta. unfold fix_. apply ndigits_small in H. destruct (Z.leb_spec (ndigits (a * 10 ^ (i - Z.min i j) + b * 10 ^ (j - Z.min i j)) - prec) 0); [reflexivity|lia]. Qed.
Lemma same_exp_sum a b e : (Z.abs (a + b) < 10 ^ 28)%Z -> dec_add (DNum a e) (DNum b e) = Ok (DNum (a + b) e).
Proof. intro H. pose proof (exact_sum a e b e) as X. cbv zeta in X. rewrite Z.min_id, Z.sub_diag in X. change (10 ^ 0)%Z with 1%Z in X. rewrite !Z.mul_1_r in X. exact (X H). Qed.
Lemma few_plus d a b : few_digits d a -> few_digits d b -> dplus a b = a + b.
Proof.
  intros (x & X & ->) (y & Y & ->). change (Q2Qc (Qpower (10 # 1) (- d))) with (pow10 (- d)). fold (value x (- d)) (value y (- d)). rewrite dplus_ok, same_exp_sum by (change (10 ^ 28)%Z with (10 * 10 ^ 27)%Z; set (T := (10 ^ 27)%Z) in *; clearbody T; lia). cbn [dec_value]. symmetry. apply value_plus.
Qed.
Lemma few_minus d a b : few_digits d a -> few_digits d b -> dminus a b = a - b.
Proof.
  intros (x & X & ->) (y & Y & ->). change (Q2Qc (Qpower (10 # 1) (- d))) with (pow10 (- d)). fold (value x (- d)) (value y (- d)). rewrite dminus_ok. unfold dec_sub. cbn [dec_neg]. rewrite same_exp_sum by (change (10 ^ 28)%Z with (10 * 10 ^ 27)%Z; set (T := (10 ^ 27)%Z) in *; clearbody T; lia). cbn [dec_value]. unfold Qcminus. rewrite value_opp. symmetry. apply value_plus.
Qed.
Lemma few_between d t t0 u lo hi : few_digits d t -> few_digits d u -> t0 = t + u -> few_digits d lo -> few_digits d hi -> lo <= t0 -> t0 <= hi -> few_digits d t0.
Proof.
  intros (x & X & ->) (y & Y & ->) -> (l & L & ->) (h & H & ->). change (Q2Qc (Qpower (10 # 1) (- d))) with (pow10 (- d)). fold (value x (- d)) (value y (- d)) (value l (- d)) (value h (- d)). rewrite value_plus, !value_le. intros A B. exists (x + y)%Z. split; [|reflexivity]. set (T := (10 ^ 27)%Z) in *; clearbody T; lia.
Qed.
