(** Lemmas about the shapes. *)
From Coq Require Import Reals Lra Psatz List Bool ZArith Lia Arith.
From Verif Require Import Base R2 LaneModel LaneProofs SensorModel SensorSpec SensorProofs ShapeModel.
Import ListNotations.
Open Scope R_scope.

Lemma py_int_close x : Rabs (IZR (py_int x) - x) < 1 /\ (0 <= x -> 0 <= IZR (py_int x) <= x) /\ (x <= 0 -> x <= IZR (py_int x) <= 0).
Proof.
  unfold py_int. destruct (leb 0 x) eqn:L; [apply leb_iff in L|apply leb_false in L].
  - pose proof (base_Int_part x) as [B1 B2]. assert (P : (0 <= Int_part x)%Z) by (apply Z.lt_succ_r, lt_IZR; rewrite succ_IZR; lra). apply IZR_le in P. split; [apply Rabs_def1; lra|]. split; intro; lra.
  - pose proof (base_Int_part (- x)) as [B1 B2]. assert (P : (0 <= Int_part (- x))%Z) by (apply Z.lt_succ_r, lt_IZR; rewrite succ_IZR; lra). apply IZR_le in P. rewrite opp_IZR. split; [apply Rabs_def1; lra|]. split; intro; lra.
Qed.
Lemma py_int_small x : -1 < x < 1 -> py_int x = 0%Z.
Proof.
  intro X. destruct (py_int_close x) as (_ & A & B). assert (H : -1 < IZR (py_int x) < 1) by (destruct (Rle_dec 0 x); [specialize (A r)|assert (x <= 0) by lra; specialize (B H)]; lra).
  destruct H as [H1 H2]. apply (lt_IZR (-1)) in H1. apply (lt_IZR _ 1) in H2. lia.
Qed.
Lemma py_int_whole z : py_int (IZR z) = z.
Proof.
  destruct (py_int_close (IZR z)) as (A & _ & _). apply Rabs_def2 in A. rewrite <- minus_IZR in A. destruct A as [A1 A2]. apply (lt_IZR _ 1) in A1. apply (lt_IZR (-1)) in A2. lia.
Qed.
Lemma clip_range x lo hi : lo <= hi -> lo <= clip x lo hi <= hi.
Proof. intro H. unfold clip. split; [apply Rmin_glb; [apply Rmax_r|exact H]|apply Rmin_r]. Qed.
Lemma clip_in x lo hi : lo <= x <= hi -> clip x lo hi = x.
Proof. intros [H1 H2]. unfold clip. rewrite Rmax_left by exact H1. apply Rmin_left. exact H2. Qed.
Lemma clip_low x lo hi : x <= lo -> lo <= hi -> clip x lo hi = lo.
Proof. intros H1 H2. unfold clip. rewrite Rmax_right by exact H1. apply Rmin_left. exact H2. Qed.

Lemma loop_nth zs ctr avg spik steps : forall i0 a0 i, (i < length steps)%nat ->
  nth_error (points_loop zs ctr avg spik i0 a0 steps) i = let q := at_dir ctr (a0 + psum steps i) (clip (avg + spik * zs (i0 + i)%nat) 0 (2 * avg)) in Some (py_int (fst q), py_int (snd q)).
Proof.
  induction steps as [|s rest IH]; intros i0 a0 i H; [cbn in H; lia|]. cbn [points_loop]. destruct i as [|i].
  - cbn [nth_error]. unfold psum. cbn [firstn]. unfold rsum. cbn [fold_left]. rewrite Rplus_0_r, Nat.add_0_r. reflexivity.
  - cbn [nth_error]. rewrite IH by (cbn in H; lia). unfold psum. cbn [firstn]. rewrite rsum_cons. rewrite <- Nat.add_succ_comm. replace (a0 + s + rsum (firstn i rest)) with (a0 + (s + rsum (firstn i rest))) by ring. reflexivity.
Qed.
Lemma loop_length zs ctr avg spik steps : forall i0 a0, length (points_loop zs ctr avg spik i0 a0 steps) = length steps.
Proof. induction steps as [|s rest IH]; intros i0 a0; [reflexivity|]. cbn [points_loop length]. rewrite IH. reflexivity. Qed.

Lemma rsum_div l k : k <> 0 -> rsum (map (fun s => s / k) l) = rsum l / k.
Proof. intro K. induction l as [|x l IH]; [unfold rsum; cbn; field; exact K|]. cbn [map]. rewrite !rsum_cons, IH. field. exact K. Qed.
Lemma rsum_ge l m : (forall x, In x l -> m <= x) -> INR (length l) * m <= rsum l.
Proof.
  induction l as [|x l IH]; intro H; [unfold rsum; cbn; lra|]. cbn [length]. rewrite rsum_cons, S_INR. specialize (IH (fun y I => H y (or_intror I))). pose proof (H x (or_introl eq_refl)). lra.
Qed.
(** Every term is at most the sum without the least value of the others. *)
Lemma rsum_term l x m : (forall y, In y l -> m <= y) -> In x l -> x + (INR (length l) - 1) * m <= rsum l.
Proof.
  intros H I. apply in_split in I as (l1 & l2 & ->). rewrite rsum_app, rsum_cons, app_length. cbn [length]. rewrite plus_INR, S_INR. assert (H1 : INR (length l1) * m <= rsum l1) by (apply rsum_ge; intros; apply H, in_app_iff; auto). assert (H2 : INR (length l2) * m <= rsum l2) by (apply rsum_ge; intros; apply H, in_app_iff; right; right; assumption). lra.
Qed.
Lemma psum_step l i : (i < length l)%nat -> exists x, In x l /\ psum l (S i) = psum l i + x.
Proof.
  revert i. induction l as [|y l IH]; intros i H; [cbn in H; lia|]. destruct i as [|i].
  - exists y. split; [left; reflexivity|]. unfold psum. cbn [firstn]. rewrite rsum_cons. unfold rsum. cbn. ring.
  - destruct (IH i) as (x & I & E); [cbn in H; lia|]. exists x. split; [right; exact I|]. unfold psum in *. cbn [firstn] in *. rewrite !rsum_cons. rewrite E. ring.
Qed.
