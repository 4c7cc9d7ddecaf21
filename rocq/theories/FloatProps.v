(* Generated from tools/Float.src by tools/gen_props.py. *)
(** Properties of interpolation and upsampling in binary64 arithmetic. *)
From Coq Require Import Reals ZArith List Bool Sorting.Sorted Lra Lia Psatz.
From Flocq Require Import Core IEEE754.BinarySingleNaN.
From Verif Require Import Base Num SeqModel FloatModel FloatSpec FloatProofs.
From Verif Require DecModel DecProofs.
Import ListNotations.
Open Scope R_scope.
From Verif Require Import FloatMain.

(** ** C130 *)

(** The check of the constructor, which looks at the rounded differences of the
    timestamps, accepts finite timestamps if and only if they increase strictly: no two
    different floats have a difference that is rounded to zero. *)
Theorem C130_constructor : forall ts, Forall finite ts -> (steps_f ts = true <-> increasing ts).
Proof. exact C130_constructor_pf. Qed.
Print Assumptions C130_constructor.

Example C130_constructor_ex : let tiny := @B754_finite 53 1024 false 1 (-1074) eq_refl in let tiny2 := @B754_finite 53 1024 false 2 (-1074) eq_refl in
  Forall finite [fzero; tiny; tiny2] /\ steps_f [fzero; tiny; tiny2] = true /\ steps_f [fzero; tiny; tiny] = false.
Proof. split; [repeat constructor| split; vm_compute; reflexivity]. Qed.

(** The weight of an interpolation between float timestamps: never a division by zero,
    always within [0, 1], 0 at the first of the two samples, never decreasing in t, and
    within four units of rounding of the exact one. *)
Theorem C130_weight : forall ta tb t, moderate ta -> moderate tb -> moderate t -> val ta <= val t < val tb ->
  exists s, weight_f ta tb t = Ok s /\ finite s /\ 0 <= val s <= 1 /\ (val t = val ta -> val s = 0) /\
    Rabs (val s - (val t - val ta) / (val tb - val ta)) <= / 2 ^ 51 * ((val t - val ta) / (val tb - val ta)) + / 2 ^ 1075 /\
    forall t', moderate t' -> val t <= val t' < val tb -> exists s', weight_f ta tb t' = Ok s' /\ val s <= val s'.
Proof. exact C130_weight_pf. Qed.
Print Assumptions C130_weight.

(** Interpolation of a sequence with float timestamps: it never fails; at a sample it is
    exactly the value of the sample; before the first and after the last sample it is
    exactly their values; in between it is within 2^-49 of the larger of the two values
    (and 2^-1073) of the straight line. *)
Theorem C130_interpolation : forall ts vs t, length ts = length vs -> ts <> [] -> Forall moderate ts -> Forall moderate vs -> increasing ts -> moderate t ->
  exists r, at_interp_f ts vs t = Ok r /\ finite r /\
    (forall i ti vi, nth_error ts i = Some ti -> nth_error vs i = Some vi -> val t = val ti \/ (i = 0%nat /\ val t <= val ti) \/ (S i = length ts /\ val ti <= val t) -> val r = val vi) /\
    (forall ta tb va vb, neighbours ts vs ta tb va vb -> val ta <= val t <= val tb ->
      Rabs (val r - linear (val ta) (val tb) (val va) (val vb) (val t)) <= / 2 ^ 49 * Rmax (Rabs (val va)) (Rabs (val vb)) + / 2 ^ 1073).
Proof. exact C130_interpolation_pf. Qed.
Print Assumptions C130_interpolation.

Example C130_interpolation_ex : let ts := [fzero; dn 1 (-1); fone] in let vs := [dn 3 0; dn 1 (-1); dn (-7) 0] in
  length ts = length vs /\ Forall finite ts /\ steps_f ts = true /\ match at_interp_f ts vs (dn 1 (-1)) with Ok r => B2SF r = B2SF (dn 1 (-1)) | Err _ => False end /\ match at_interp_f ts vs (dn 5 (-2)) with Ok r => B2SF r = B2SF (dn 155 (-2)) | Err _ => False end.
Proof. cbv zeta. split; [reflexivity|]. split; [repeat constructor|]. split; [vm_compute; reflexivity|]. split; vm_compute; reflexivity. Qed.

(** Equal samples: the interpolated value can differ from both.  Between 0.1 at time 0
    and 0.1 at time 1, at time 0.3 it is 0.09999999999999999, less than both. *)
Theorem C130_constant_refuted : exists ts vs t r, Forall moderate ts /\ Forall moderate vs /\ moderate t /\ increasing ts /\ (exists v, vs = [v; v]) /\ at_interp_f ts vs t = Ok r /\ forall v, In v vs -> val r < val v.
Proof. exact C130_constant_refuted_pf. Qed.
Print Assumptions C130_constant_refuted.

(** Interpolation between decimal timestamps.  The result is the sample at a timestamp, and
    in between it is close to the straight line if the two timestamps are not close to each
    other relative to their distance from 0; the relative error grows with the quotient
    of the two. *)
Theorem C130_decimal : forall e cs vs c i ca cb va vb, spaced e cs -> length cs = length vs -> Forall moderate vs ->
  nth_error cs i = Some ca -> nth_error cs (S i) = Some cb -> nth_error vs i = Some va -> nth_error vs (S i) = Some vb -> (ca <= c <= cb)%Z ->
  exists r, at_interp_d (stamps e cs) vs (DecModel.DNum c e) = Ok r /\ finite r /\ (c = ca -> val r = val va) /\ (c = cb -> val r = val vb) /\
    Rabs (val r - linear (dval ca e) (dval cb e) (val va) (val vb) (dval c e)) <=
      / 2 ^ 47 * (Rmax (Rabs (dval ca e)) (Rabs (dval cb e)) / dval (cb - ca) e) * Rmax (Rabs (val va)) (Rabs (val vb)) + / 2 ^ 1073.
Proof. exact C130_decimal_pf. Qed.
Print Assumptions C130_decimal.

Example C130_decimal_ex : spaced (-1) [0; 1; 3]%Z /\ length [0; 1; 3]%Z = length [fzero; dn 1 (-1); fone] /\
  match at_interp_d (stamps (-1) [0; 1; 3]%Z) [fzero; dn 1 (-1); fone] (DecModel.DNum 2 (-1)) with Ok r => B2SF r = B2SF (dn 55 (-2)) | Err _ => False end.
Proof.
  split; [|split; [reflexivity| vm_compute; reflexivity]]. assert (DV : forall c, dval c (-1) = IZR c / 10) by (intros c; unfold dval; cbn; change (Pos.to_nat 1) with 1%nat; lra).
  assert (P : 2 ^ 10 <= 2 ^ 1000) by (apply Rle_pow; [lra| lia]). assert (P2 : / 2 ^ 1000 <= / 2 ^ 10) by (apply Rinv_le_contravar; [apply pow_lt; lra| exact P]).
  split; [repeat constructor|]. split.
  - intros c [<-|[<-|[<-|[]]]]; (split; [lia|]); rewrite DV; rewrite Rabs_pos_eq by lra; apply Rle_trans with (2 ^ 10); [lra| exact P| lra| exact P| lra| exact P].
  - intros [|[|[|i]]] a b HA HB; cbn in HA, HB; try discriminate; injection HA as <-; injection HB as <-; rewrite !DV; cbn [Z.sub Z.add Z.opp Z.pos_sub]; (split; [apply Rle_trans with (/ 2 ^ 10); [exact P2| lra]|]); rewrite !Rabs_pos_eq by lra; apply Rmax_lub; lra.
Qed.

(** With decimal timestamps the weight can exceed 1: the numerator is the difference of two
    roundings.  Between 0 at 0.3 and 1 at 0.4, the value at 0.39999999999999999999 is greater
    than 1. *)
Theorem C130_decimal_refuted : exists e ca cb c r, (ca < c < cb)%Z /\ (Z.abs ca < 10 ^ 27)%Z /\ (Z.abs cb < 10 ^ 27)%Z /\
  at_interp_d (stamps e [ca; cb]) [fzero; fone] (DecModel.DNum c e) = Ok r /\ finite r /\ val fzero = 0 /\ val fone = 1 /\ 1 < val r.
Proof. exact C130_decimal_refuted_pf. Qed.
Print Assumptions C130_decimal_refuted.

(** Two different decimals can have a difference that is 0 as a float: the interpolation
    between timestamps 0 and 1e-400 divides by zero. *)
Theorem C130_decimal_division_refuted : exists e ca cb c va vb, (ca < c < cb)%Z /\ (Z.abs ca < 10 ^ 27)%Z /\ (Z.abs cb < 10 ^ 27)%Z /\ finite va /\ finite vb /\
  at_interp_d (stamps e [ca; cb]) [va; vb] (DecModel.DNum c e) = Err PyZeroDivisionError.
Proof. exact C130_decimal_division_refuted_pf. Qed.
Print Assumptions C130_decimal_division_refuted.

(** The timestamps that upsample inserts between two others are between them, and off the
    equidistant ones by no more than 2^-50 of the distance and the sizes of the two. *)
Theorem C130_inserted : forall ta tb n, moderate ta -> moderate tb -> val ta < val tb -> (Z.of_nat n + 1 <= 2 ^ 50)%Z -> / 2 ^ 950 <= val tb - val ta ->
  exists l, inserted ta tb n = Ok l /\ length l = n /\ forall i x, nth_error l i = Some x -> finite x /\ val ta <= val x <= val tb /\
    Rabs (val x - (val ta + (INR i + 1) * ((val tb - val ta) / (INR n + 1)))) <= / 2 ^ 50 * (val tb - val ta + Rmax (Rabs (val ta)) (Rabs (val tb))).
Proof. exact C130_inserted_pf. Qed.
Print Assumptions C130_inserted.

(** Upsampling a trajectory whose timestamps are fine enough: the result is accepted by the
    constructor; its timestamps increase strictly; there are n more between any two of the
    trajectory, which C130_inserted is about; the samples of the trajectory are kept with
    their values, and all values are those of the interpolation. *)
Theorem C130_upsample : forall ts vs n, length ts = length vs -> ts <> [] -> Forall moderate ts -> Forall moderate vs -> increasing ts -> fine n ts ->
  exists us ws, upsample_f ts vs n = Ok (us, ws) /\ length us = ((length ts - 1) * (n + 1) + 1)%nat /\ length ws = length us /\ Forall finite us /\ increasing us /\
    (forall i t v, nth_error ts i = Some t -> nth_error vs i = Some v -> nth_error us (i * (n + 1)) = Some t /\ nth_error ws (i * (n + 1)) = Some v) /\
    (forall i a b, nth_error ts i = Some a -> nth_error ts (S i) = Some b -> exists l, inserted a b n = Ok l /\ length l = n /\ forall j x, nth_error l j = Some x -> nth_error us (i * (n + 1) + 1 + j) = Some x) /\
    (forall j x w, nth_error us j = Some x -> nth_error ws j = Some w -> exists r, at_interp_f ts vs x = Ok r /\ val w = val r).
Proof. exact C130_upsample_pf. Qed.
Print Assumptions C130_upsample.

(** Timestamps that are too close: between 1 and the next float there is no other, and
    upsample raises the ValueError of the constructor. *)
Theorem C130_upsample_refuted : exists ts vs n, length ts = length vs /\ Forall moderate ts /\ Forall moderate vs /\ increasing ts /\ n <> 0%nat /\ upsample_f ts vs n = Err ZValueError.
Proof. exact C130_upsample_refuted_pf. Qed.
Print Assumptions C130_upsample_refuted.

(** Timestamps 0, 1 and 3 meet the hypotheses of the theorems on weights, on inserted
    timestamps and on upsampling by 3. *)
Example C130_upsample_ex : let ts := [fzero; fone; fint 3] in let vs := [fone; dn 1 (-1); fzero] in
  length ts = length vs /\ Forall moderate ts /\ increasing ts /\ fine 3 ts /\
  match upsample_f ts vs 3 with Ok (us, ws) => map B2SF us = map B2SF [fzero; dn 25 (-2); dn 5 (-1); dn 75 (-2); fone; dn 15 (-1); fint 2; dn 25 (-1); fint 3] /\ length ws = 9%nat | Err _ => False end /\
  match weight_f fone (fint 3) (fint 2) with Ok s => B2SF s = B2SF (dn 5 (-1)) | Err _ => False end.
Proof.
  cbv zeta. destruct fone_ok as [F1 V1]. destruct (fint_ok 3 ltac:(lia)) as [F3 V3].
  assert (P : forall x, (Z.abs x <= 3)%Z -> Rabs (IZR x) <= bpow radix2 1000). { intros x H. rewrite <- abs_IZR. apply Rle_trans with (bpow radix2 2); [change (bpow radix2 2) with 4; apply IZR_le; lia| apply bpow_le; lia]. }
  assert (M0 : moderate fzero) by (apply moderate_within; split; [reflexivity| change (val fzero) with 0; apply (P 0%Z); lia]). assert (M1 : moderate fone) by (apply moderate_within; split; [exact F1| rewrite V1; apply (P 1%Z); lia]).
  assert (M3 : moderate (fint 3)) by (apply moderate_within; split; [exact F3| rewrite V3; apply (P 3%Z); lia]).
  assert (PW : forall x, 1 <= x -> / 2 ^ 950 <= x) by (intros x H; refine (Rle_trans _ _ _ _ H); rewrite <- Rinv_1; apply Rinv_le_contravar; [lra| apply pow_R1_Rle; lra]).
  split; [reflexivity|]. split; [repeat (apply Forall_cons; [assumption|]); apply Forall_nil|]. split; [unfold increasing; cbn [map]; rewrite V1, V3; change (val fzero) with 0; repeat (apply SSorted_cons || apply Forall_cons || apply Forall_nil || apply SSorted_nil); lra|]. split; [|split; [vm_compute; split; reflexivity| vm_compute; reflexivity]].
  intros [|[|[|i]]] a b HA HB; cbn [nth_error] in HA, HB; try discriminate; try (destruct i; discriminate); assert (IS : forall x y : fl, Some x = Some y -> x = y) by (clear; congruence); apply IS in HA, HB; subst a b; rewrite ?V1, ?V3; change (val fzero) with 0; (split; [apply PW; lra|]; clear PW); rewrite ?Rabs_R0, ?Rabs_R1; try rewrite (Rabs_pos_eq 3) by lra; rewrite Rmax_right by lra; cbn [INR]; lra.
Qed.
