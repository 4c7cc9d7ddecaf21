(** Exact rational numbers with boolean comparisons.

    Python [int], finite [float] and [decimal.Decimal] values are rationals and
    CPython compares them exactly, also across these types.  [Qc] (canonical
    rationals of the standard library) has Leibniz equality, so "the same
    timestamp" is [=].  Rounding in arithmetic is not modelled. *)
From Coq Require Import QArith Qround Qcanon ZArith Bool List Lia Lqa.
Import ListNotations.
Open Scope Qc_scope.

Definition qltb (a b : Qc) : bool :=
  match (a ?= b) with Lt => true | _ => false end.
Definition qleb (a b : Qc) : bool :=
  match (a ?= b) with Gt => false | _ => true end.
Definition qeqb (a b : Qc) : bool :=
  match (a ?= b) with Eq => true | _ => false end.

(** Rational literals: [qz 3] is 3, [qf 3 2] is 3/2. *)
Definition qz (z : Z) : Qc := Q2Qc (inject_Z z).
Definition qn (n : nat) : Qc := qz (Z.of_nat n).
Definition qf (a : Z) (b : positive) : Qc := Q2Qc (a # b).

(** Python's [min]/[max] (first argument wins on ties, immaterial here) and
    [abs]. *)
Definition qmin (a b : Qc) : Qc := if qltb b a then b else a.
Definition qmax (a b : Qc) : Qc := if qltb a b then b else a.
Definition qabs (a : Qc) : Qc := if qltb a 0 then - a else a.
(** [numpy.clip(x, lo, hi)] = minimum(maximum(x, lo), hi). *)
Definition qclip (x lo hi : Qc) : Qc := qmin (qmax x lo) hi.

Definition qsum (l : list Qc) : Qc := fold_right Qcplus 0 l.

(** ** Reflection *)
Lemma qltb_lt a b : qltb a b = true <-> a < b.
Proof. unfold qltb; rewrite Qclt_alt; destruct (a ?= b); split; congruence. Qed.
Lemma qleb_le a b : qleb a b = true <-> a <= b.
Proof. unfold qleb; rewrite Qcle_alt; destruct (a ?= b); split; congruence. Qed.
Lemma qeqb_eq a b : qeqb a b = true <-> a = b.
Proof. unfold qeqb; rewrite Qceq_alt; destruct (a ?= b); split; congruence. Qed.
Lemma qltb_ge a b : qltb a b = false <-> b <= a.
Proof.
  split; intro H.
  - apply Qcnot_lt_le; intro C; apply qltb_lt in C; congruence.
  - destruct (qltb a b) eqn:E; [|reflexivity]. apply qltb_lt in E.
    exfalso; exact (Qclt_not_le _ _ E H).
Qed.
Lemma qleb_gt a b : qleb a b = false <-> b < a.
Proof.
  split; intro H.
  - apply Qcnot_le_lt; intro C; apply qleb_le in C; congruence.
  - destruct (qleb a b) eqn:E; [|reflexivity]. apply qleb_le in E.
    exfalso; exact (Qclt_not_le _ _ H E).
Qed.
Lemma qeqb_neq a b : qeqb a b = false <-> a <> b.
Proof.
  split; intro H.
  - intro C; apply qeqb_eq in C; congruence.
  - destruct (qeqb a b) eqn:E; [|reflexivity]. apply qeqb_eq in E; contradiction.
Qed.

Lemma qltb_spec a b : BoolSpec (a < b) (b <= a) (qltb a b).
Proof. destruct (qltb a b) eqn:E; constructor; [apply qltb_lt|apply qltb_ge]; exact E. Qed.
Lemma qleb_spec a b : BoolSpec (a <= b) (b < a) (qleb a b).
Proof. destruct (qleb a b) eqn:E; constructor; [apply qleb_le|apply qleb_gt]; exact E. Qed.
Lemma qeqb_spec a b : BoolSpec (a = b) (a <> b) (qeqb a b).
Proof. destruct (qeqb a b) eqn:E; constructor; [apply qeqb_eq|apply qeqb_neq]; exact E. Qed.

Lemma qeqb_refl a : qeqb a a = true.
Proof. apply qeqb_eq; reflexivity. Qed.

(** ** Linear arithmetic on [Qc] through [Q] *)
Lemma Qc_add_this a b : (this (a + b) == this a + this b)%Q.
Proof. unfold Qcplus, Q2Qc; cbn [this]; apply Qred_correct. Qed.
Lemma Qc_mul_this a b : (this (a * b) == this a * this b)%Q.
Proof. unfold Qcmult, Q2Qc; cbn [this]; apply Qred_correct. Qed.
Lemma Qc_opp_this a : (this (- a) == - this a)%Q.
Proof. unfold Qcopp, Q2Qc; cbn [this]; apply Qred_correct. Qed.
Lemma Qc_sub_this a b : (this (a - b) == this a - this b)%Q.
Proof. unfold Qcminus; rewrite Qc_add_this, Qc_opp_this; reflexivity. Qed.
Lemma Qc_inv_this a : (this (/ a) == / this a)%Q.
Proof. unfold Qcinv, Q2Qc; cbn [this]; apply Qred_correct. Qed.
Lemma Qc_div_this a b : (this (a / b) == this a / this b)%Q.
Proof. unfold Qcdiv; rewrite Qc_mul_this, Qc_inv_this; reflexivity. Qed.
Lemma Qc_qz_this z : (this (qz z) == inject_Z z)%Q.
Proof. unfold qz, Q2Qc; cbn [this]; apply Qred_correct. Qed.
Lemma Qc_qf_this a b : (this (qf a b) == (a # b))%Q.
Proof. unfold qf, Q2Qc; cbn [this]; apply Qred_correct. Qed.
Lemma Qc_0_this : (this 0 == 0)%Q.  Proof. reflexivity. Qed.
Lemma Qc_1_this : (this 1 == 1)%Q.  Proof. reflexivity. Qed.
Lemma Qc_Q2Qc_this q : (this (Q2Qc q) == q)%Q.
Proof. cbn [this Q2Qc]; apply Qred_correct. Qed.

Lemma Qc_eq_Q (a b : Qc) : a = b <-> (this a == this b)%Q.
Proof. split; [intros ->; reflexivity | apply Qc_is_canon]. Qed.
Lemma Qc_lt_Q (a b : Qc) : a < b <-> (this a < this b)%Q.
Proof. reflexivity. Qed.
Lemma Qc_le_Q (a b : Qc) : a <= b <-> (this a <= this b)%Q.
Proof. reflexivity. Qed.

(** [lra]/[nra] over [Qc]. *)
Ltac qc_hyps :=
  repeat match goal with
  | H : Qclt _ _ |- _ => apply (proj1 (Qc_lt_Q _ _)) in H
  | H : Qcle _ _ |- _ => apply (proj1 (Qc_le_Q _ _)) in H
  | H : @eq Qc _ _ |- _ => apply (proj1 (Qc_eq_Q _ _)) in H
  end.
Ltac qc_rw H :=
  repeat first
   [ rewrite Qc_add_this in H | rewrite Qc_sub_this in H | rewrite Qc_mul_this in H
   | rewrite Qc_opp_this in H | rewrite Qc_div_this in H | rewrite Qc_inv_this in H
   | rewrite Qc_qz_this in H | rewrite Qc_qf_this in H | rewrite Qc_Q2Qc_this in H
   | rewrite Qc_0_this in H | rewrite Qc_1_this in H ].
Ltac qc_rwg :=
  repeat first
   [ rewrite Qc_add_this | rewrite Qc_sub_this | rewrite Qc_mul_this
   | rewrite Qc_opp_this | rewrite Qc_div_this | rewrite Qc_inv_this
   | rewrite Qc_qz_this | rewrite Qc_qf_this | rewrite Qc_Q2Qc_this
   | rewrite Qc_0_this | rewrite Qc_1_this ].
Ltac qc_prep :=
  qc_hyps;
  match goal with
  | |- Qclt _ _ => apply (proj2 (Qc_lt_Q _ _))
  | |- Qcle _ _ => apply (proj2 (Qc_le_Q _ _))
  | |- @eq Qc _ _ => apply (proj2 (Qc_eq_Q _ _))
  | |- _ => exfalso
  end;
  qc_rwg;
  repeat match goal with
  | H : (_ < _)%Q |- _ => progress (qc_rw H)
  | H : (_ <= _)%Q |- _ => progress (qc_rw H)
  | H : (_ == _)%Q |- _ => progress (qc_rw H)
  end.
Ltac qlra := try (intros; exfalso; congruence); qc_prep; lra.
Ltac qnra := qc_prep; nra.

(** Embedding of the naturals. *)
Lemma qn_0 : qn 0 = 0.
Proof. apply Qc_is_canon. reflexivity. Qed.
Lemma qn_S n : qn (S n) = qn n + 1.
Proof.
  apply Qc_is_canon. unfold qn. rewrite Qc_add_this, !Qc_qz_this, Nat2Z.inj_succ, Qc_1_this.
  unfold Z.succ. rewrite inject_Z_plus. reflexivity.
Qed.
Lemma qn_lt m n : qn m < qn n <-> (m < n)%nat.
Proof.
  rewrite Qc_lt_Q. unfold qn. rewrite !Qc_qz_this. rewrite <- Zlt_Qlt. lia.
Qed.
Lemma qn_le m n : qn m <= qn n <-> (m <= n)%nat.
Proof.
  rewrite Qc_le_Q. unfold qn. rewrite !Qc_qz_this. rewrite <- Zle_Qle. lia.
Qed.
Lemma qn_add m n : qn (m + n) = qn m + qn n.
Proof. induction m as [|m IH]; cbn [Nat.add]; rewrite ?qn_0, ?qn_S, ?IH; ring. Qed.
Lemma qn_nonneg n : 0 <= qn n.
Proof. rewrite <- qn_0. apply qn_le. lia. Qed.
(** Archimedean: finitely many steps of [d > 0] exceed any bound. *)
Lemma qn_arch (a d : Qc) : 0 < d -> exists n, a < qn n * d.
Proof.
  intro D. exists (Z.to_nat (Qfloor (this (a / d)) + 1)).
  set (f := Qfloor (this (a / d))).
  assert (H : a / d < qz (f + 1)).
  { rewrite Qc_lt_Q, Qc_qz_this. unfold f. eapply Qlt_le_trans; [apply Qlt_floor|]. apply Qle_refl. }
  assert (H2 : qz (f + 1) <= qn (Z.to_nat (f + 1))).
  { rewrite Qc_le_Q. unfold qn. rewrite !Qc_qz_this. rewrite <- Zle_Qle. lia. }
  assert (E : a = a / d * d). { field. intro C. rewrite C in D. revert D. apply Qlt_irrefl. }
  rewrite E. apply Qcmult_lt_compat_r; [exact D|]. eapply Qclt_le_trans; eassumption.
Qed.

(** Concrete computations: compare numerals, not their canonicity proofs. *)
Ltac qcong := first [reflexivity | apply Qc_is_canon; vm_compute; reflexivity | progress f_equal; qcong].
Ltac qcompute := vm_compute; qcong.
