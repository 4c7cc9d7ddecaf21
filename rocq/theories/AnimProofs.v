(** Lemmas about animations. *)
From Coq Require Lqa.
From Coq Require Import String Reals Lra Psatz QArith Qround Qcanon ZArith List Bool Arith Lia.
From Verif Require Import Base Num R2 SeqModel SeqSpec SeqProofs SeqProofs2 DictLemmas LaneModel LaneProofs ShapeModel EvalModel SimulatorModel SimulatorSpec
  SimulatorProofs ScenarioModel AnimModel AnimSpec.
Import ListNotations.
Local Open Scope R_scope.

Lemma bb_fold : forall l a b, a <= b -> exists a' b', fold_left bb_step l (Fn a, Fn b) = (Fn a', Fn b') /\ In a' (a :: l) /\ In b' (b :: l) /\ a' <= a /\ b <= b' /\ a' <= b' /\ (forall x, In x l -> a' <= x <= b').
Proof.
  induction l as [|x l IH]; intros a b H; cbn [fold_left].
  - exists a, b. repeat split; try lra; try (left; reflexivity); destruct H0.
  - unfold bb_step at 2. cbn [fst snd ext_ltb].
    destruct (ltb x a) eqn:E1; destruct (ltb b x) eqn:E2; cbn [fst snd ext_ltb]; rewrite ?E2;
      repeat match goal with K : ltb _ _ = true |- _ => apply ltb_iff in K | K : ltb _ _ = false |- _ => apply ltb_false in K end;
      [exfalso; lra| | |].
    + destruct (IH x b ltac:(lra)) as (a' & b' & F & I1 & I2 & L1 & L2 & L3 & A). exists a', b'. split; [exact F|].
      split; [right; exact I1|]. split; [destruct I2; [left|right; right]; assumption|].
      repeat split; try lra; destruct H0 as [<-|H0]; try lra; apply A; exact H0.
    + destruct (IH a x ltac:(lra)) as (a' & b' & F & I1 & I2 & L1 & L2 & L3 & A). exists a', b'. split; [exact F|].
      split; [destruct I1; [left|right; right]; assumption|]. split; [right; exact I2|].
      repeat split; try lra; destruct H0 as [<-|H0]; try lra; apply A; exact H0.
    + destruct (IH a b ltac:(lra)) as (a' & b' & F & I1 & I2 & L1 & L2 & L3 & A). exists a', b'. split; [exact F|].
      split; [destruct I1; [left|right; right]; assumption|]. split; [destruct I2; [left|right; right]; assumption|].
      repeat split; try lra; destruct H0 as [<-|H0]; try lra; apply A; exact H0.
Qed.
Lemma bb_all : forall l, l <> [] -> exists a b, fold_left bb_step l (PInf, NInf) = (Fn a, Fn b) /\ In a l /\ In b l /\ a <= b /\ (forall x, In x l -> a <= x <= b).
Proof.
  intros [|x l] N; [contradiction|]. cbn [fold_left]. unfold bb_step at 2. cbn [ext_ltb fst snd].
  destruct (bb_fold l x x ltac:(lra)) as (a & b & F & I1 & I2 & L1 & L2 & L3 & A). exists a, b. split; [exact F|]. repeat split; try assumption; destruct H as [<-|H]; try lra; apply A; exact H.
Qed.

Lemma clip_cases : forall x c, 0 <= c -> Rabs (clip x (- c) c) <= c /\ 0 <= clip x (- c) c * x /\ (Rabs x <= c -> clip x (- c) c = x) /\ (c < Rabs x -> Rabs (clip x (- c) c) = c).
Proof.
  intros x c H. unfold clip, Rmin, Rmax.
  repeat (destruct (Rle_dec _ _)); unfold Rabs; repeat (destruct (Rcase_abs _)); repeat split; intros; try lra; try nra.
Qed.

(** *** Frames *)
Local Open Scope Qc_scope.
Lemma qmin_le : forall a b, qmin a b <= a /\ qmin a b <= b.
Proof. intros a b. unfold qmin. destruct (qltb b a) eqn:E; [apply qltb_lt in E|apply qltb_ge in E]; split; try apply Qcle_refl; try exact E. apply Qclt_le_weak. exact E. Qed.
Lemma qmin_pos : forall a b, 0 < a -> 0 < b -> 0 < qmin a b.
Proof. intros a b A B. unfold qmin. destruct (qltb b a); assumption. Qed.
Lemma floor_div_spec : forall x y, 0 < y -> qz (floor_div x y) * y <= x /\ x < (qz (floor_div x y) + 1) * y.
Proof.
  intros x y H. unfold floor_div. pose proof (Qfloor_le (this (x / y))) as L. pose proof (Qlt_floor (this (x / y))) as U.
  assert (L' : qz (Qfloor (this (x / y))) <= x / y). { unfold Qcle, qz. cbn [this Q2Qc]. rewrite Qred_correct. exact L. }
  assert (U' : x / y < qz (Qfloor (this (x / y))) + 1).
  { unfold Qclt, qz, Qcplus. cbn [this Q2Qc]. rewrite !Qred_correct. rewrite inject_Z_plus in U. exact U. }
  assert (E : x / y * y = x) by (field; intro Z; rewrite Z in H; discriminate H).
  split.
  - rewrite <- E at 2. apply Qcmult_le_compat_r; [exact L'|apply Qclt_le_weak; exact H].
  - rewrite <- E at 1. apply Qcmult_lt_compat_r; assumption.
Qed.
Lemma qceil_spec : forall x, x <= qz (qceil x) /\ qz (qceil x) < x + 1.
Proof.
  intro x. unfold qceil. pose proof (Qle_ceiling (this x)) as L. pose proof (Qceiling_lt (this x)) as U. split.
  - unfold Qcle, qz. cbn [this Q2Qc]. rewrite Qred_correct. exact L.
  - unfold Qclt, qz, Qcplus. cbn [this Q2Qc]. rewrite !Qred_correct.
    replace (Qceiling (this x) - 1)%Z with (Qceiling (this x) + - 1)%Z in U by reflexivity. rewrite inject_Z_plus in U. change (inject_Z (-1)) with (-1)%Q in U. Lqa.lra.
Qed.
