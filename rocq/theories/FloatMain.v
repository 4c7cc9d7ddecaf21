(* Generated from tools/Float.src by tools/gen_props.py. *)
(** Properties of interpolation and upsampling in binary64 arithmetic. *)
From Coq Require Import Reals ZArith List Bool Sorting.Sorted Lra Lia Psatz.
From Flocq Require Import Core IEEE754.BinarySingleNaN.
From Verif Require Import Base Num SeqModel FloatModel FloatSpec FloatProofs.
From Verif Require DecModel DecProofs.
Import ListNotations.
Open Scope R_scope.

(** The check of the constructor, which looks at the rounded differences of the
    timestamps, accepts finite timestamps if and only if they increase strictly: no two
    different floats have a difference that is rounded to zero. *)
Lemma C130_constructor_pf : forall ts, Forall finite ts -> (steps_f ts = true <-> increasing ts).
Proof. exact steps_increasing. Qed.

(** The weight of an interpolation between float timestamps: never a division by zero,
    always within [0, 1], 0 at the first of the two samples, never decreasing in t, and
    within four units of rounding of the exact one. *)
Lemma C130_weight_pf : forall ta tb t, moderate ta -> moderate tb -> moderate t -> val ta <= val t < val tb ->
  exists s, weight_f ta tb t = Ok s /\ finite s /\ 0 <= val s <= 1 /\ (val t = val ta -> val s = 0) /\
    Rabs (val s - (val t - val ta) / (val tb - val ta)) <= / 2 ^ 51 * ((val t - val ta) / (val tb - val ta)) + / 2 ^ 1075 /\
    forall t', moderate t' -> val t <= val t' < val tb -> exists s', weight_f ta tb t' = Ok s' /\ val s <= val s'.
Proof.
  intros ta tb t A B T H. apply moderate_within in A, B, T. destruct (weight_ok ta tb t A B T H) as (s & E & F & R & D & Z & V). exists s. split; [exact E|]. split; [exact F|]. split; [exact R|]. split; [exact Z|]. split.
  - replace (/ 2 ^ 51) with (4 * u) by (rewrite u_val; lra). replace (/ 2 ^ 1075) with eta by (unfold eta; rewrite bpow_powerRZ; change (IZR radix2) with 2; change (-1075)%Z with (- Z.of_nat 1075)%Z; rewrite powerRZ_neg', <- pow_powerRZ; reflexivity). exact D.
  - intros t' T' H'. apply moderate_within in T'. destruct (weight_ok ta tb t' A B T' ltac:(lra)) as (s' & E' & _ & _ & _ & _ & V'). exists s'. split; [exact E'|]. rewrite V, V'. apply nearest_le.
    assert (P : 0 < nearest (val tb - val ta)) by (apply nearest_diff_pos; [apply fmt_val| apply fmt_val| lra]). apply Rmult_le_compat_r; [left; apply Rinv_0_lt_compat, P|]. apply nearest_le. lra.
Qed.

Lemma two49 : / 2 ^ 49 = 16 * u.
Proof. rewrite u_val. lra. Qed.

Lemma two1073 : / 2 ^ 1073 = 4 * eta.
Proof.
  unfold eta. replace 4 with (bpow radix2 2) by reflexivity. rewrite <- bpow_plus. rewrite bpow_powerRZ. change (IZR radix2) with 2. change (2 + -1075)%Z with (- Z.of_nat 1073)%Z. rewrite powerRZ_neg', <- pow_powerRZ. reflexivity.
Qed.

Lemma linear_at_a ta tb va vb : linear ta tb va vb ta = va.
Proof. unfold linear. replace (ta - ta) with 0 by ring. unfold Rdiv. ring. Qed.

Lemma linear_at_b ta tb va vb : ta < tb -> linear ta tb va vb tb = vb.
Proof. intros H. unfold linear. field. lra. Qed.

Lemma nth_item {A} (l : list A) i : (i < length l)%nat -> exists x, nth_error l i = Some x.
Proof. intros H. destruct (nth_error l i) eqn:E; [eauto|]. apply nth_error_None in E. lia. Qed.

Lemma at_sample ts vs t i ti vi : length ts = length vs -> Forall moderate ts -> Forall moderate vs -> increasing ts -> moderate t -> nth_error ts i = Some ti -> nth_error vs i = Some vi -> val t = val ti ->
  exists r, at_interp_f ts vs t = Ok r /\ finite r /\ val r = val vi.
Proof.
  intros L MT MV I T TI VI E. assert (FT : Forall finite ts) by (eapply Forall_impl; [|exact MT]; intros x X; exact (proj1 X)).
  assert (MVi : forall j x, nth_error vs j = Some x -> moderate x) by (intros j x H; rewrite Forall_forall in MV; exact (MV x (nth_error_In _ _ H))).
  assert (MTi : forall j x, nth_error ts j = Some x -> moderate x) by (intros j x H; rewrite Forall_forall in MT; exact (MT x (nth_error_In _ _ H))).
  assert (LI : (i < length ts)%nat) by (apply nth_error_Some; congruence).
  destruct i as [|i].
  - destruct ts as [|t0 r]; [discriminate|]. destruct vs as [|v0 w]; [discriminate|]. injection TI as ->. injection VI as ->. exists vi. split; [|split; [exact (proj1 (MVi 0%nat vi eq_refl))| reflexivity]].
    eapply interp_first; [reflexivity| reflexivity| exact (proj1 (MTi 0%nat ti eq_refl))| exact (proj1 T)| lra].
  - destruct (Nat.eq_dec (S (S i)) (length ts)) as [Q|Q].
    + exists vi. split; [|split; [exact (proj1 (MVi _ vi VI))| reflexivity]]. eapply interp_last; try eassumption; [exact (proj1 T)| lra].
    + destruct (nth_item ts (S (S i)) ltac:(lia)) as [tb TB]. destruct (nth_item vs (S (S i)) ltac:(lia)) as [vb VB].
      assert (H : val ti <= val t < val tb) by (pose proof (increasing_nth ts (S i) (S (S i)) ti tb I ltac:(lia) TI TB); lra).
      rewrite (interp_inside ts vs t (S i) ti tb vi vb FT I (proj1 T) TI TB VI VB H ltac:(discriminate)).
      destruct (weight_ok ti tb t) as (s & ES & FS & RS & _ & Z & _); try solve [apply moderate_within; eauto]; [exact H|]. rewrite ES. exists (mix vi vb s). split; [reflexivity|].
      destruct (mix_ok vi vb s) as ([FM _] & VM & _); try solve [apply moderate_within; eauto]; [exact FS| lra|]. split; [exact FM|]. apply VM, Z, E.
Qed.

(** Interpolation of a sequence with float timestamps: it never fails; at a sample it is
    exactly the value of the sample; before the first and after the last sample it is
    exactly their values; in between it is within 2^-49 of the larger of the two values
    (and 2^-1073) of the straight line. *)
Lemma C130_interpolation_pf : forall ts vs t, length ts = length vs -> ts <> [] -> Forall moderate ts -> Forall moderate vs -> increasing ts -> moderate t ->
  exists r, at_interp_f ts vs t = Ok r /\ finite r /\
    (forall i ti vi, nth_error ts i = Some ti -> nth_error vs i = Some vi -> val t = val ti \/ (i = 0%nat /\ val t <= val ti) \/ (S i = length ts /\ val ti <= val t) -> val r = val vi) /\
    (forall ta tb va vb, neighbours ts vs ta tb va vb -> val ta <= val t <= val tb ->
      Rabs (val r - linear (val ta) (val tb) (val va) (val vb) (val t)) <= / 2 ^ 49 * Rmax (Rabs (val va)) (Rabs (val vb)) + / 2 ^ 1073).
Proof.
  intros ts vs t L NE MT MV I T. assert (FT : Forall finite ts) by (eapply Forall_impl; [|exact MT]; intros x X; exact (proj1 X)).
  assert (MVi : forall j x, nth_error vs j = Some x -> moderate x) by (intros j x H; rewrite Forall_forall in MV; exact (MV x (nth_error_In _ _ H))).
  assert (MTi : forall j x, nth_error ts j = Some x -> moderate x) by (intros j x H; rewrite Forall_forall in MT; exact (MT x (nth_error_In _ _ H))).
  assert (SMP : forall r, at_interp_f ts vs t = Ok r -> forall i ti vi, nth_error ts i = Some ti -> nth_error vs i = Some vi -> val t = val ti \/ (i = 0%nat /\ val t <= val ti) \/ (S i = length ts /\ val ti <= val t) -> val r = val vi).
  { intros r R i ti vi TI VI [E|[[-> E]|[E1 E2]]].
    - destruct (at_sample ts vs t i ti vi) as (r' & R' & _ & V); try assumption. congruence.
    - destruct ts as [|t0 q]; [discriminate|]. destruct vs as [|v0 w]; [discriminate|]. injection TI as ->. injection VI as ->. rewrite (interp_first (ti :: q) (vi :: w) t ti vi q w eq_refl eq_refl (proj1 (MTi 0%nat ti eq_refl)) (proj1 T) E) in R. congruence.
    - rewrite (interp_last ts vs t i ti vi L FT I (proj1 T) E1 TI VI E2) in R. congruence. }
  assert (BET : forall ta tb va vb, neighbours ts vs ta tb va vb -> val ta < val t < val tb -> exists r, at_interp_f ts vs t = Ok r /\ finite r /\
    Rabs (val r - linear (val ta) (val tb) (val va) (val vb) (val t)) <= / 2 ^ 49 * Rmax (Rabs (val va)) (Rabs (val vb)) + / 2 ^ 1073).
  { intros ta tb va vb (i & TA & TB & VA & VB) H. rewrite (interp_inside ts vs t i ta tb va vb FT I (proj1 T) TA TB VA VB ltac:(lra) ltac:(intros _; lra)).
    destruct (weight_ok ta tb t) as (s & ES & FS & RS & D & _ & _); try solve [apply moderate_within; eauto]; [lra|]. rewrite ES. exists (mix va vb s). split; [reflexivity|].
    destruct (mix_ok va vb s) as ([FM _] & _ & X); try solve [apply moderate_within; eauto]; [exact FS| lra|]. split; [exact FM|].
    set (w := (val t - val ta) / (val tb - val ta)) in *. assert (W : 0 <= w <= 1).
    { unfold w. split; [apply Rmult_le_pos; [lra| left; apply Rinv_0_lt_compat; lra]|]. apply Rmult_le_reg_r with (val tb - val ta); [lra|]. unfold Rdiv. rewrite Rmult_assoc, Rinv_l by lra. lra. }
    pose proof u_pos as U. pose proof eta_u as EU. pose proof eta_pos as EP.
    assert (D' : Rabs (val s - w) <= 5 * u) by nra. pose proof (interp_error (val va) (val vb) (val s) w (5 * u) W D') as Y.
    rewrite (Rabs_pos_eq (1 - val s)) in X by lra. replace (1 - val s + val s) with 1 in X by ring. rewrite Rmult_1_r in X. unfold linear. fold w. rewrite two49, two1073.
    set (M := Rmax (Rabs (val va)) (Rabs (val vb))) in *. assert (0 <= M) by (apply Rle_trans with (Rabs (val va)); [apply Rabs_pos| apply Rmax_l]).
    replace (val (mix va vb s) - (val va + (val vb - val va) * w)) with ((val (mix va vb s) - (val va * (1 - val s) + val vb * val s)) + (val va * (1 - val s) + val vb * val s - (val va + (val vb - val va) * w))) by ring.
    refine (Rle_trans _ _ _ (Rabs_triang _ _) _). nra. }
  assert (OK : exists r, at_interp_f ts vs t = Ok r /\ finite r).
  { destruct ts as [|t0 q]; [contradiction|]. destruct vs as [|v0 w]; [discriminate|]. destruct (Rle_lt_dec (val t) (val t0)) as [C|C].
    - exists v0. split; [|exact (proj1 (MVi 0%nat v0 eq_refl))]. exact (interp_first _ _ t t0 v0 q w eq_refl eq_refl (proj1 (MTi 0%nat t0 eq_refl)) (proj1 T) C).
    - destruct (nth_item (t0 :: q) (length q) ltac:(cbn; lia)) as [tl TL]. destruct (nth_item (v0 :: w) (length q) ltac:(cbn in *; lia)) as [vl VL]. destruct (Rle_lt_dec (val tl) (val t)) as [C'|C'].
      + exists vl. split; [|exact (proj1 (MVi _ vl VL))]. exact (interp_last _ _ t (length q) tl vl L FT I (proj1 T) eq_refl TL VL C').
      + set (i := bisect_f q t). assert (B : bisect_f (t0 :: q) t = S i) by (cbn [bisect_f]; rewrite (proj2 (fle_ok t0 t (proj1 (MTi 0%nat t0 eq_refl)) (proj1 T))) by lra; reflexivity).
        assert (LI : (S i < length (t0 :: q))%nat).
        { destruct (Nat.lt_ge_cases (S i) (length (t0 :: q))) as [G|G]; [exact G|]. assert (X : (length q < bisect_f (t0 :: q) t)%nat) by (cbn in G |- *; cbn in B; rewrite B; lia). apply (bisect_ok _ t FT (proj1 T) I _ _ TL) in X. lra. }
        destruct (nth_item (t0 :: q) i ltac:(lia)) as [ta TA]. destruct (nth_item (t0 :: q) (S i) LI) as [tb TB]. destruct (nth_item (v0 :: w) i ltac:(cbn in *; lia)) as [va VA]. destruct (nth_item (v0 :: w) (S i) ltac:(cbn in *; lia)) as [vb VB].
        assert (H1 : val ta <= val t) by (apply (bisect_ok _ t FT (proj1 T) I _ _ TA); rewrite B; lia).
        assert (H2 : val t < val tb) by (apply Rnot_le_lt; intros Q; apply (bisect_ok _ t FT (proj1 T) I _ _ TB) in Q; rewrite B in Q; lia).
        destruct (Req_dec (val t) (val ta)) as [Q|Q]; [destruct (at_sample _ _ t i ta va L MT MV I T TA VA Q) as (r & R1 & R2 & _); exists r; split; assumption|].
        destruct (BET ta tb va vb) as (r & R1 & R2 & _); [exists i; repeat split; assumption| lra| exists r; split; assumption]. }
  destruct OK as (r & R & FR). exists r. split; [exact R|]. split; [exact FR|]. split; [exact (SMP r R)|].
  intros ta tb va vb N H. pose proof N as (i & TA & TB & VA & VB). assert (H' : val ta < val tb) by exact (increasing_nth ts i (S i) ta tb I ltac:(lia) TA TB).
  assert (P : 0 <= / 2 ^ 49 * Rmax (Rabs (val va)) (Rabs (val vb)) + / 2 ^ 1073).
  { rewrite two49, two1073. pose proof u_pos. pose proof eta_pos. assert (0 <= Rmax (Rabs (val va)) (Rabs (val vb))) by (apply Rle_trans with (Rabs (val va)); [apply Rabs_pos| apply Rmax_l]). nra. }
  destruct (Req_dec (val t) (val ta)) as [Q|Q].
  - rewrite (SMP r R i ta va TA VA (or_introl Q)), Q, linear_at_a, Rminus_diag_eq, Rabs_R0 by reflexivity. exact P.
  - destruct (Req_dec (val t) (val tb)) as [Q'|Q'].
    + rewrite (SMP r R (S i) tb vb TB VB (or_introl Q')), Q', linear_at_b, Rminus_diag_eq, Rabs_R0 by (reflexivity || exact H'). exact P.
    + destruct (BET ta tb va vb N ltac:(lra)) as (r' & R' & _ & X). congruence.
Qed.

Definition dn (c e : Z) : fl := fdec (DecModel.DNum c e).

(** Equal samples: the interpolated value can differ from both.  Between 0.1 at time 0
    and 0.1 at time 1, at time 0.3 it is 0.09999999999999999, less than both. *)
Lemma C130_constant_refuted_pf : exists ts vs t r, Forall moderate ts /\ Forall moderate vs /\ moderate t /\ increasing ts /\ (exists v, vs = [v; v]) /\ at_interp_f ts vs t = Ok r /\ forall v, In v vs -> val r < val v.
Proof.
  assert (M : forall c e, (0 <= c)%Z -> dval c e <= 1 -> moderate (dn c e) /\ val (dn c e) = nearest (dval c e)).
  { intros c e C H. assert (P : 0 <= dval c e). { unfold dval. apply Rmult_le_pos; [apply IZR_le, C| left; apply powerRZ_lt; lra]. }
    destruct (fdec_ok c e 0 ltac:(lia)) as [F V]; [cbn; rewrite Rabs_pos_eq; assumption|]. fold (dn c e) in F, V. split; [|exact V]. apply moderate_within. split; [exact F|]. rewrite V.
    refine (Rle_trans _ _ _ (nearest_abs _ 0 ltac:(lia) _) _); [cbn; rewrite Rabs_pos_eq; assumption| apply bpow_le; lia]. }
  assert (M0 : moderate fzero) by (apply moderate_within; split; [reflexivity| change (val fzero) with 0; rewrite Rabs_R0; apply bpow_ge_0]).
  assert (M1 : moderate fone) by (apply moderate_within; split; [apply fone_ok| rewrite (proj2 fone_ok), Rabs_R1; exact (bpow_le radix2 0 1000 ltac:(lia))]).
  exists [fzero; fone], [dn 1 (-1); dn 1 (-1)], (dn 3 (-1)). assert (X : match at_interp_f [fzero; fone] [dn 1 (-1); dn 1 (-1)] (dn 3 (-1)) with Ok r => Bltb r (dn 1 (-1)) && is_finite r | Err _ => false end = true) by (vm_compute; reflexivity).
  destruct (at_interp_f [fzero; fone] [dn 1 (-1); dn 1 (-1)] (dn 3 (-1))) as [r|]; [|discriminate X]. apply andb_true_iff in X. destruct X as [L FR].
  exists r. destruct (M 1%Z (-1)%Z ltac:(lia)) as [MA _]; [unfold dval; cbn; change (Pos.to_nat 1) with 1%nat; lra|]. destruct (M 3%Z (-1)%Z ltac:(lia)) as [MT _]; [unfold dval; cbn; change (Pos.to_nat 1) with 1%nat; lra|].
  split; [repeat (apply Forall_cons; [assumption|]); apply Forall_nil|]. split; [repeat (apply Forall_cons; [assumption|]); apply Forall_nil|]. split; [exact MT|]. split; [unfold increasing; cbn [map]; rewrite (proj2 fone_ok); change (val fzero) with 0; repeat constructor; lra|].
  split; [eexists; reflexivity|]. split; [reflexivity|].
  rewrite Bltb_correct in L by (exact FR || exact (proj1 MA)). destruct (Rlt_bool_spec (B2R r) (B2R (dn 1 (-1)))) as [G|]; [|discriminate]. intros v [<-|[<-|[]]]; exact G.
Qed.

Lemma dec_leb_same a b e : DecModel.dec_leb (DecModel.DNum a e) (DecModel.DNum b e) = Z.leb a b.
Proof.
  unfold DecModel.dec_leb, DecModel.dec_ltb. destruct (qltb_spec (DecModel.value b e) (DecModel.value a e)) as [H|H]; cbn [negb]; symmetry.
  - apply Z.leb_gt. apply Qcanon.Qclt_not_le in H. apply Z.nle_gt. intros Q. apply H. apply DecProofs.value_le. exact Q.
  - apply Z.leb_le. apply DecProofs.value_le with e. exact H.
Qed.

Lemma dec_sub_same a b e : (Z.abs a < 10 ^ 27)%Z -> (Z.abs b < 10 ^ 27)%Z -> DecModel.dec_sub (DecModel.DNum b e) (DecModel.DNum a e) = Ok (DecModel.DNum (b - a) e).
Proof. intros A B. unfold DecModel.dec_sub, DecModel.dec_neg. rewrite DecProofs.same_exp_sum by lia. reflexivity. Qed.

Lemma dval_le a b e : (a <= b)%Z -> dval a e <= dval b e.
Proof. intros H. unfold dval. apply Rmult_le_compat_r; [left; apply powerRZ_lt; lra| apply IZR_le, H]. Qed.

Lemma dval_minus a b e : dval (b - a) e = dval b e - dval a e.
Proof. unfold dval. rewrite minus_IZR. ring. Qed.

Lemma abs_nearest x : Rabs (nearest x - x) <= u * Rabs x + eta.
Proof.
  destruct (nearest_error x) as (d & e & D & E & ->). replace (x * (1 + d) + e - x) with (x * d + e) by ring. refine (Rle_trans _ _ _ (Rabs_triang _ _) _). rewrite Rabs_mult, (Rmult_comm u).
  apply Rplus_le_compat; [apply Rmult_le_compat_l; [apply Rabs_pos| exact D]| exact E].
Qed.

Lemma ratio_error (x g d p : R) : 0 < g -> 0 <= d <= / 1000 -> Rabs (p - 1) <= d -> forall N e T, Rabs (N - x) <= e -> Rabs x <= T -> Rabs (N * p / g - x / g) <= ((1 + d) * e + T * d) / g.
Proof.
  intros G D P N e T H X. replace (N * p / g - x / g) with ((p * (N - x) + x * (p - 1)) / g) by (field; lra). unfold Rdiv. rewrite Rabs_mult, (Rabs_pos_eq (/ g)) by (left; apply Rinv_0_lt_compat, G).
  apply Rmult_le_compat_r; [left; apply Rinv_0_lt_compat, G|]. refine (Rle_trans _ _ _ (Rabs_triang _ _) _). rewrite !Rabs_mult.
  assert (Rabs p <= 1 + d) by (apply Rabs_le_inv in P; apply Rabs_le; lra). apply Rplus_le_compat; apply Rmult_le_compat; try apply Rabs_pos; assumption.
Qed.

Lemma weight_d_ok ca cb c e T : (forall x, x = ca \/ x = cb \/ x = c -> (Z.abs x < 10 ^ 27)%Z /\ Rabs (dval x e) <= bpow radix2 1000) -> (ca <= c <= cb)%Z -> (ca < cb)%Z ->
  T = Rmax (Rabs (dval ca e)) (Rabs (dval cb e)) -> bpow radix2 (-1000) <= dval (cb - ca) e -> T <= bpow radix2 47 * dval (cb - ca) e ->
  exists s, weight_d (DecModel.DNum ca e) (DecModel.DNum cb e) (DecModel.DNum c e) = Ok s /\ finite s /\ 0 <= val s /\
    Rabs (val s - (dval c e - dval ca e) / (dval cb e - dval ca e)) <= 16 * u * (T / (dval cb e - dval ca e)) /\ (c = ca -> val s = 0).
Proof.
  intros B Hc Hab ET HG HT. destruct (B ca ltac:(auto)) as [ZA BA]. destruct (B cb ltac:(auto)) as [ZB BB]. destruct (B c ltac:(auto)) as [ZC BC]. clear B.
  unfold weight_d. rewrite dec_sub_same by assumption. rewrite dval_minus in HG, HT. pose proof (dval_le _ _ e (proj1 Hc)) as L1. pose proof (dval_le _ _ e (proj2 Hc)) as L2.
  pose proof (bpow_gt_0 radix2 (-1000)) as P1000.
  destruct (fdec_ok ca e 1000 ltac:(lia) BA) as [FA VA]. destruct (fdec_ok c e 1000 ltac:(lia) BC) as [FC VC].
  assert (BD : Rabs (dval (cb - ca) e) <= bpow radix2 1001). { rewrite dval_minus. replace (bpow radix2 1001) with (bpow radix2 1000 * 2) by (symmetry; exact (bpow_plus radix2 1000 1)). apply Rabs_le_inv in BA, BB. apply Rabs_le. lra. }
  destruct (fdec_ok (cb - ca) e 1001 ltac:(lia) BD) as [FD VD]. rewrite dval_minus in VD.
  set (a := dval ca e) in *. set (b := dval cb e) in *. set (t := dval c e) in *. set (g := b - a) in *.
  assert (WA : within 1000 (fdec (DecModel.DNum ca e))) by (split; [exact FA| rewrite VA; apply nearest_abs; [lia| exact BA]]).
  assert (WC : within 1000 (fdec (DecModel.DNum c e))) by (split; [exact FC| rewrite VC; apply nearest_abs; [lia| exact BC]]).
  destruct (fsub_ok _ _ 1000 ltac:(lia) WC WA) as [[FN _] VN]. rewrite VC, VA in VN.
  set (N := val (fsub (fdec (DecModel.DNum c e)) (fdec (DecModel.DNum ca e)))) in *.
  assert (U : 0 < u <= / 1000000) by (rewrite u_val; lra). pose proof eta_pos as EP.
  assert (GT : g <= 2 * T). { unfold g. rewrite ET. pose proof (Rmax_l (Rabs a) (Rabs b)). pose proof (Rmax_r (Rabs a) (Rabs b)). pose proof (Rle_abs b). pose proof (Rle_abs (- a)). rewrite Rabs_Ropp in H2. lra. }
  assert (EG : 1000 * eta <= u * g).
  { apply Rle_trans with (u * bpow radix2 (-1000)); [|apply Rmult_le_compat_l; lra]. unfold u, eta. rewrite <- bpow_plus. change (-53 + -1000)%Z with (22 + -1075)%Z. rewrite bpow_plus. apply Rmult_le_compat_r; [apply bpow_ge_0|]. cbn. lra. }
  assert (AT : Rabs a <= T) by (rewrite ET; apply Rmax_l). assert (BT : Rabs b <= T) by (rewrite ET; apply Rmax_r).
  assert (TT : Rabs t <= T) by (apply Rabs_le_inv in AT, BT; apply Rabs_le; lra).
  assert (T00 : 0 <= T) by (apply Rle_trans with (Rabs a); [apply Rabs_pos| exact AT]).
  assert (XA : Rabs (t - a) <= 2 * T) by (apply Rabs_le_inv in AT, TT; apply Rabs_le; lra).
  (* the numerator *)
  assert (NP : 0 <= N). { rewrite VN. apply nearest_ge0. assert (nearest a <= nearest t) by (apply nearest_le; lra). lra. }
  assert (NE : Rabs (N - (t - a)) <= 5 * u * T).
  { rewrite VN. destruct (nearest_diff (nearest t) (nearest a)) as (d1 & D1 & ->); try (apply generic_format_round; [apply FLT_exp_valid; reflexivity| apply valid_rnd_N]).
    pose proof (abs_nearest t) as QT. pose proof (abs_nearest a) as QA. assert (UT : u * Rabs t <= u * T) by (apply Rmult_le_compat_l; lra). assert (UA : u * Rabs a <= u * T) by (apply Rmult_le_compat_l; lra).
    set (x := nearest t) in *. set (y := nearest a) in *. assert (GG : u * g <= u * (2 * T)) by (apply Rmult_le_compat_l; lra).
    assert (XY : Rabs ((x - y) - (t - a)) <= 21 / 10 * (u * T)). { apply Rabs_le_inv in QT, QA. apply Rabs_le. lra. }
    assert (SM : Rabs ((x - y) * d1) <= (2 * T + T / 10) * u). { rewrite Rabs_mult. apply Rmult_le_compat; try apply Rabs_pos; [|exact D1]. apply Rabs_le_inv in XY, XA. assert (u * T <= / 1000000 * T) by (apply Rmult_le_compat_r; lra). apply Rabs_le. lra. }
    replace ((x - y) * (1 + d1) - (t - a)) with (((x - y) - (t - a)) + (x - y) * d1) by ring. refine (Rle_trans _ _ _ (Rabs_triang _ _) _). lra. }
  (* the denominator *)
  assert (GP : 0 < g) by lra.
  assert (DE : exists d, Rabs d <= 11 / 10 * u /\ nearest g = g * (1 + d)).
  { exists (nearest g / g - 1). split; [|field; lra]. replace (nearest g / g - 1) with ((nearest g - g) * / g) by (field; lra). rewrite Rabs_mult, (Rabs_pos_eq (/ g)) by (left; apply Rinv_0_lt_compat, GP).
    apply Rmult_le_reg_r with g; [exact GP|]. rewrite Rmult_assoc, Rinv_l, Rmult_1_r by lra. pose proof (abs_nearest g) as Q. rewrite (Rabs_pos_eq g) in Q by lra. lra. }
  destruct DE as (d2 & D2 & DV). rewrite DV in VD. assert (D2' : 0 < 1 + d2) by (apply Rabs_le_inv in D2; lra).
  assert (TG : T / g <= bpow radix2 47). { apply Rmult_le_reg_r with g; [exact GP|]. unfold Rdiv. rewrite Rmult_assoc, Rinv_l, Rmult_1_r by lra. exact HT. }
  assert (UTG : u * T <= / 64 * g). { apply Rle_trans with (u * (bpow radix2 47 * g)); [apply Rmult_le_compat_l; lra|]. rewrite <- Rmult_assoc. unfold u. rewrite <- bpow_plus. cbn. lra. }
  assert (DZ : val (fdec (DecModel.DNum (cb - ca) e)) <> 0) by (rewrite VD; apply Rmult_integral_contrapositive; split; lra).
  assert (NG : N <= 11 / 10 * g) by (apply Rabs_le_inv in NE; unfold g; unfold g in UTG; lra).
  destruct (fdiv_ok (fsub (fdec (DecModel.DNum c e)) (fdec (DecModel.DNum ca e))) (fdec (DecModel.DNum (cb - ca) e)) 1 ltac:(lia) FN FD DZ) as (s & ES & [FS _] & VS).
  { fold N. rewrite VD. change (bpow radix2 1) with 2. rewrite Rabs_pos_eq by (apply Rmult_le_pos; [exact NP| left; apply Rinv_0_lt_compat, Rmult_lt_0_compat; lra]).
    apply Rmult_le_reg_r with (g * (1 + d2)); [apply Rmult_lt_0_compat; lra|]. unfold Rdiv. rewrite Rmult_assoc, Rinv_l, Rmult_1_r by (apply Rgt_not_eq, Rmult_lt_0_compat; lra). apply Rabs_le_inv in D2. nra. }
  exists s. split; [exact ES|]. split; [exact FS|]. fold N in VS. rewrite VD in VS.
  assert (QP : 0 <= N / (g * (1 + d2))) by (apply Rmult_le_pos; [exact NP| left; apply Rinv_0_lt_compat, Rmult_lt_0_compat; lra]).
  split; [rewrite VS; apply nearest_ge0, QP|]. split.
  - rewrite VS. destruct (nearest_error (N / (g * (1 + d2)))) as (d3 & e3 & D3 & E3 & ->).
    replace (N / (g * (1 + d2)) * (1 + d3) + e3 - (t - a) / g) with ((N * ((1 + d3) / (1 + d2)) / g - (t - a) / g) + e3) by (field; lra).
    assert (PR : Rabs ((1 + d3) / (1 + d2) - 1) <= 3 * u).
    { replace ((1 + d3) / (1 + d2) - 1) with ((d3 - d2) * / (1 + d2)) by (field; lra). rewrite Rabs_mult, (Rabs_pos_eq (/ (1 + d2))) by (left; apply Rinv_0_lt_compat, D2').
      apply Rmult_le_reg_r with (1 + d2); [exact D2'|]. rewrite Rmult_assoc, Rinv_l, Rmult_1_r by lra. apply Rabs_le_inv in D2, D3. apply Rabs_le. nra. }
    pose proof (ratio_error (t - a) g (3 * u) ((1 + d3) / (1 + d2)) GP ltac:(lra) PR N (5 * u * T) (2 * T) NE ltac:(apply Rabs_le_inv in AT, TT; apply Rabs_le; lra)) as Q.
    refine (Rle_trans _ _ _ (Rabs_triang _ _) _). apply Rle_trans with (((1 + 3 * u) * (5 * u * T) + 2 * T * (3 * u)) / g + eta); [apply Rplus_le_compat; assumption|].
    apply Rmult_le_reg_r with g; [exact GP|]. replace ((((1 + 3 * u) * (5 * u * T) + 2 * T * (3 * u)) / g + eta) * g) with ((1 + 3 * u) * (5 * u * T) + 2 * T * (3 * u) + eta * g) by (field; lra). replace (16 * u * (T / g) * g) with (16 * (u * T)) by (field; lra).
    assert (T0 : 0 <= u * T) by (apply Rmult_le_pos; lra). assert (UU : u * (u * T) <= / 1000000 * (u * T)) by (apply Rmult_le_compat_r; lra).
    assert (EGG : eta * g <= u * T). { apply Rle_trans with (u / 2 * (2 * T)); [apply Rmult_le_compat; try lra; apply eta_u| lra]. } nra.
  - intros ->. rewrite VS. unfold N. assert (Z : N = 0). { rewrite VN. unfold t, a. rewrite Rminus_diag_eq by reflexivity. apply nearest_id, fmt_0. } fold N. rewrite Z. unfold Rdiv. rewrite Rmult_0_l. apply nearest_id, fmt_0.
Qed.

Lemma bisect_d_ok e cs c : StronglySorted Z.lt cs -> forall j x, nth_error cs j = Some x -> (j < bisect_d (stamps e cs) (DecModel.DNum c e))%nat <-> (x <= c)%Z.
Proof.
  induction cs as [|a r IH]; intros I j x H; [destruct j; discriminate|]. inversion I as [|? ? I1 I2]; subst. cbn [stamps map bisect_d]. rewrite dec_leb_same. destruct (Z.leb_spec a c) as [L|L].
  - destruct j as [|j]; cbn in H; [injection H as <-; split; [intros _; exact L| lia]|]. rewrite <- (IH I1 j x H). unfold stamps. lia.
  - split; [lia|]. intros H'. destruct j as [|j]; cbn in H; [injection H as <-; lia|]. rewrite Forall_forall in I2. specialize (I2 x (nth_error_In _ _ H)). lia.
Qed.

Lemma sorted_nth (cs : list Z) i j x y : StronglySorted Z.lt cs -> (i < j)%nat -> nth_error cs i = Some x -> nth_error cs j = Some y -> (x < y)%Z.
Proof.
  revert i j. induction cs as [|a r IH]; intros i j I L X Y; [destruct i; discriminate|]. inversion I as [|? ? I1 I2]; subst. destruct j as [|j]; [lia|]. cbn in Y.
  destruct i as [|i]; cbn in X; [|exact (IH i j I1 ltac:(lia) X Y)]. injection X as <-. rewrite Forall_forall in I2. exact (I2 _ (nth_error_In _ _ Y)).
Qed.

Lemma last_stamp e r c0 d : last (stamps e (c0 :: r)) d = match nth_error (c0 :: r) (length r) with Some x => DecModel.DNum x e | None => d end.
Proof. revert c0 d. induction r as [|a r IH]; intros c0 d; [reflexivity|]. change (last (stamps e (c0 :: a :: r)) d) with (last (stamps e (a :: r)) d). rewrite IH. reflexivity. Qed.

Lemma nth_stamp e cs i x : nth_error cs i = Some x -> nth_error (stamps e cs) i = Some (DecModel.DNum x e).
Proof. intros H. unfold stamps. rewrite nth_error_map, H. reflexivity. Qed.

Lemma interp_d_first e r vs c c0 v0 w : vs = v0 :: w -> (c <= c0)%Z -> at_interp_d (stamps e (c0 :: r)) vs (DecModel.DNum c e) = Ok v0.
Proof. intros -> H. unfold at_interp_d. cbn [stamps map]. rewrite dec_leb_same, (proj2 (Z.leb_le _ _) H). reflexivity. Qed.

Lemma interp_d_last e cs vs c i cl vl : length cs = length vs -> StronglySorted Z.lt cs -> S i = length cs -> nth_error cs i = Some cl -> nth_error vs i = Some vl -> (cl <= c)%Z -> at_interp_d (stamps e cs) vs (DecModel.DNum c e) = Ok vl.
Proof.
  intros L I E TL VL H. destruct cs as [|c0 r]; [destruct i; discriminate|]. destruct vs as [|v0 w]; [discriminate|]. cbn in E, L. injection E as E. injection L as L. subst i.
  unfold at_interp_d. change (stamps e (c0 :: r)) with (DecModel.DNum c0 e :: stamps e r) at 1. cbv iota beta. rewrite dec_leb_same. destruct (Z.leb_spec c c0) as [C|C].
  - destruct r as [|c1 r]; [cbn in *; destruct w; [congruence|discriminate]|]. assert (c0 < cl)%Z by (apply (sorted_nth (c0 :: c1 :: r) 0 (length (c1 :: r)) c0 cl I); [cbn; lia| reflexivity| exact TL]). lia.
  - change (DecModel.DNum c0 e :: stamps e r) with (stamps e (c0 :: r)). rewrite last_stamp, TL, dec_leb_same, (proj2 (Z.leb_le _ _) H), rev_last, <- L, VL. reflexivity.
Qed.

Lemma interp_d_inside e cs vs c i ca cb va vb : StronglySorted Z.lt cs -> nth_error cs i = Some ca -> nth_error cs (S i) = Some cb -> nth_error vs i = Some va -> nth_error vs (S i) = Some vb ->
  (ca <= c < cb)%Z -> (i = 0%nat -> (ca < c)%Z) -> at_interp_d (stamps e cs) vs (DecModel.DNum c e) = match weight_d (DecModel.DNum ca e) (DecModel.DNum cb e) (DecModel.DNum c e) with Ok s => Ok (mix va vb s) | Err x => Err x end.
Proof.
  intros I TA TB VA VB [H1 H2] H0. destruct cs as [|c0 r]; [destruct i; discriminate|]. unfold at_interp_d. change (stamps e (c0 :: r)) with (DecModel.DNum c0 e :: stamps e r) at 1. cbv iota beta. rewrite dec_leb_same.
  assert (C0 : (c0 < c)%Z). { destruct i as [|i]; [cbn in TA; injection TA as ->; auto|]. pose proof (sorted_nth _ 0 (S i) c0 ca I ltac:(lia) eq_refl TA). lia. }
  rewrite (proj2 (Z.leb_gt _ _) C0). change (DecModel.DNum c0 e :: stamps e r) with (stamps e (c0 :: r)). rewrite last_stamp.
  destruct (nth_error (c0 :: r) (length r)) as [cl|] eqn:TL; [|exfalso; apply nth_error_None in TL; cbn in TL; lia].
  assert (C1 : (c < cl)%Z). { assert (S i <= length r)%nat by (assert (S i < length (c0 :: r))%nat by (apply nth_error_Some; congruence); cbn in *; lia). destruct (Nat.eq_dec (S i) (length r)) as [Q|Q]; [rewrite Q in TB; assert (cb = cl) by congruence; lia|]. pose proof (sorted_nth _ (S i) (length r) cb cl I ltac:(lia) TB TL). lia. }
  rewrite dec_leb_same, (proj2 (Z.leb_gt _ _) C1).
  assert (B : bisect_d (stamps e (c0 :: r)) (DecModel.DNum c e) = S i). { pose proof (proj2 (bisect_d_ok e _ c I _ _ TA) H1). assert (~ (S i < bisect_d (stamps e (c0 :: r)) (DecModel.DNum c e))%nat) by (intros Q; apply (bisect_d_ok e _ c I _ _ TB) in Q; lia). lia. }
  rewrite B. unfold item_pred, item. rewrite (nth_stamp e _ _ _ TA), (nth_stamp e _ _ _ TB). destruct (weight_d _ _ _); [|reflexivity]. rewrite VA, VB. reflexivity.
Qed.

Lemma two47 : / 2 ^ 47 = 64 * u.
Proof. rewrite u_val. lra. Qed.

Lemma two_pow n : 2 ^ n = bpow radix2 (Z.of_nat n).
Proof. rewrite bpow_powerRZ. change (IZR radix2) with 2. apply pow_powerRZ. Qed.

Lemma two_inv n : / 2 ^ n = bpow radix2 (- Z.of_nat n).
Proof. rewrite bpow_opp, two_pow. reflexivity. Qed.

(** Interpolation between decimal timestamps.  The result is the sample at a timestamp, and
    in between it is close to the straight line if the two timestamps are not close to each
    other relative to their distance from 0; the relative error grows with the quotient
    of the two. *)
Lemma C130_decimal_pf : forall e cs vs c i ca cb va vb, spaced e cs -> length cs = length vs -> Forall moderate vs ->
  nth_error cs i = Some ca -> nth_error cs (S i) = Some cb -> nth_error vs i = Some va -> nth_error vs (S i) = Some vb -> (ca <= c <= cb)%Z ->
  exists r, at_interp_d (stamps e cs) vs (DecModel.DNum c e) = Ok r /\ finite r /\ (c = ca -> val r = val va) /\ (c = cb -> val r = val vb) /\
    Rabs (val r - linear (dval ca e) (dval cb e) (val va) (val vb) (dval c e)) <=
      / 2 ^ 47 * (Rmax (Rabs (dval ca e)) (Rabs (dval cb e)) / dval (cb - ca) e) * Rmax (Rabs (val va)) (Rabs (val vb)) + / 2 ^ 1073.
Proof.
  intros e cs vs c i ca cb va vb (I & B & G) L MV TA TB VA VB H.
  assert (MVi : forall j x, nth_error vs j = Some x -> within 1000 x) by (intros j x Q; apply moderate_within; rewrite Forall_forall in MV; exact (MV x (nth_error_In _ _ Q))).
  assert (K : forall j a b, nth_error cs j = Some a -> nth_error cs (S j) = Some b -> forall d, (a <= d <= b)%Z ->
    exists s, weight_d (DecModel.DNum a e) (DecModel.DNum b e) (DecModel.DNum d e) = Ok s /\ finite s /\ 0 <= val s /\
      Rabs (val s - (dval d e - dval a e) / (dval b e - dval a e)) <= 16 * u * (Rmax (Rabs (dval a e)) (Rabs (dval b e)) / (dval b e - dval a e)) /\ (d = a -> val s = 0)).
  { intros j a b A Bb d Hd. destruct (B a (nth_error_In _ _ A)) as [Za Ra]. destruct (B b (nth_error_In _ _ Bb)) as [Zb Rb]. destruct (G j a b A Bb) as [G1 G2].
    rewrite two_pow in Ra, Rb, G2. rewrite two_inv in G1. change (Z.of_nat 1000) with 1000%Z in *. change (Z.of_nat 47) with 47%Z in *. apply weight_d_ok; [|exact Hd|exact (sorted_nth cs j (S j) a b I ltac:(lia) A Bb)|reflexivity|exact G1|exact G2].
    intros x [-> |[-> | ->]]; [split; assumption| split; assumption|]. split; [lia|]. pose proof (dval_le _ _ e (proj1 Hd)). pose proof (dval_le _ _ e (proj2 Hd)). apply Rabs_le_inv in Ra, Rb. apply Rabs_le. lra. }
  assert (AB : (ca < cb)%Z) by exact (sorted_nth cs i (S i) ca cb I ltac:(lia) TA TB).
  destruct (G i ca cb TA TB) as [G1 G2]. rewrite two_inv in G1. rewrite two_pow in G2. change (- Z.of_nat 1000)%Z with (-1000)%Z in G1. change (Z.of_nat 47) with 47%Z in G2.
  pose proof (bpow_gt_0 radix2 (-1000)) as P1000. rewrite dval_minus in G1, G2 |- *. set (g := dval cb e - dval ca e) in *. set (T := Rmax (Rabs (dval ca e)) (Rabs (dval cb e))) in *.
  assert (T0 : 0 <= T) by (apply Rle_trans with (Rabs (dval ca e)); [apply Rabs_pos| apply Rmax_l]).
  set (M := Rmax (Rabs (val va)) (Rabs (val vb))). assert (M0 : 0 <= M) by (apply Rle_trans with (Rabs (val va)); [apply Rabs_pos| apply Rmax_l]).
  assert (AB' : dval ca e < dval cb e) by (assert (Q : 0 < g) by lra; unfold g in Q; lra).
  assert (TG0 : 0 <= T / g) by (apply Rmult_le_pos; [exact T0| left; apply Rinv_0_lt_compat; lra]). pose proof u_pos as UP. pose proof eta_pos as EP.
  assert (P : 0 <= / 2 ^ 47 * (T / g) * M + / 2 ^ 1073). { rewrite two47, two1073. apply Rplus_le_le_0_compat; [|lra]. apply Rmult_le_pos; [|exact M0]. apply Rmult_le_pos; lra. }
  destruct (Z.eq_dec c cb) as [-> |NB].
  - assert (R : exists r, at_interp_d (stamps e cs) vs (DecModel.DNum cb e) = Ok r /\ finite r /\ val r = val vb).
    { destruct (Nat.eq_dec (S (S i)) (length cs)) as [Q|Q].
      - exists vb. split; [|split; [exact (proj1 (MVi _ vb VB))| reflexivity]]. exact (interp_d_last e cs vs cb (S i) cb vb L I Q TB VB (Z.le_refl _)).
      - assert (LS : (S i < length cs)%nat) by (apply nth_error_Some; congruence). destruct (nth_item cs (S (S i)) ltac:(lia)) as [cd CD]. destruct (nth_item vs (S (S i)) ltac:(lia)) as [vd VD].
        assert (N : (cb < cd)%Z) by exact (sorted_nth cs (S i) (S (S i)) cb cd I ltac:(lia) TB CD). rewrite (interp_d_inside e cs vs cb (S i) cb cd vb vd I TB CD VB VD ltac:(lia) ltac:(discriminate)).
        destruct (K (S i) cb cd TB CD cb ltac:(lia)) as (s & -> & FS & _ & _ & Z). specialize (Z eq_refl). exists (mix vb vd s). split; [reflexivity|].
        destruct (mix_ok vb vd s (MVi _ _ VB) (MVi _ _ VD) FS ltac:(lra)) as ([FM _] & VM & _). split; [exact FM|]. apply VM, Z. }
    destruct R as (r & R1 & R2 & R3). exists r. split; [exact R1|]. split; [exact R2|]. split; [lia|]. split; [intros _; exact R3|]. rewrite R3, linear_at_b, Rminus_diag_eq, Rabs_R0 by (reflexivity || exact AB'). exact P.
  - assert (LC : (ca <= c < cb)%Z) by lia. destruct (K i ca cb TA TB c ltac:(lia)) as (s & ES & FS & S0 & D & Z).
    assert (OK : c <> ca -> at_interp_d (stamps e cs) vs (DecModel.DNum c e) = Ok (mix va vb s)) by (intros N; rewrite (interp_d_inside e cs vs c i ca cb va vb I TA TB VA VB LC ltac:(intros _; lia)), ES; reflexivity).
    assert (TG : T / g <= bpow radix2 47). { apply Rmult_le_reg_r with g; [lra|]. unfold Rdiv. rewrite Rmult_assoc, Rinv_l, Rmult_1_r by lra. exact G2. }
    assert (UT : u * (T / g) <= / 64). { apply Rle_trans with (u * bpow radix2 47); [apply Rmult_le_compat_l; lra|]. unfold u. rewrite <- bpow_plus. cbn. lra. }
    set (w := (dval c e - dval ca e) / (dval cb e - dval ca e)) in *. fold g in w, D. pose proof (dval_le _ _ e (proj1 (proj1 (conj H LC)))) as L1. pose proof (dval_le _ _ e (proj2 H)) as L2.
    assert (W : 0 <= w <= 1).
    { unfold w. split; [apply Rmult_le_pos; [lra| left; apply Rinv_0_lt_compat; lra]|]. apply Rmult_le_reg_r with g; [lra|]. unfold Rdiv. rewrite Rmult_assoc, Rinv_l by lra. unfold g. lra. }
    fold T in D. assert (S1 : val s <= 125 / 100) by (apply Rabs_le_inv in D; lra).
    destruct (mix_ok va vb s (MVi _ _ VA) (MVi _ _ VB) FS ltac:(lra)) as ([FM _] & VM & X). fold M in X.
    assert (ERR : Rabs (val (mix va vb s) - linear (dval ca e) (dval cb e) (val va) (val vb) (dval c e)) <= / 2 ^ 47 * (T / g) * M + / 2 ^ 1073).
    { pose proof (interp_error (val va) (val vb) (val s) w _ W D) as Y. fold M in Y. unfold linear. fold g. fold w. rewrite two47, two1073.
      replace (val (mix va vb s) - (val va + (val vb - val va) * w)) with ((val (mix va vb s) - (val va * (1 - val s) + val vb * val s)) + (val va * (1 - val s) + val vb * val s - (val va + (val vb - val va) * w))) by ring.
      refine (Rle_trans _ _ _ (Rabs_triang _ _) _).
      assert (Q : Rabs (1 - val s) + val s <= 3 / 2) by (unfold Rabs; destruct (Rcase_abs _); lra).
      assert (GT : g <= 2 * T). { unfold g, T. pose proof (Rmax_l (Rabs (dval ca e)) (Rabs (dval cb e))). pose proof (Rmax_r (Rabs (dval ca e)) (Rabs (dval cb e))). pose proof (Rle_abs (dval cb e)). pose proof (Rle_abs (- dval ca e)). rewrite Rabs_Ropp in H3. lra. }
      assert (KH : / 2 <= T / g). { apply Rmult_le_reg_r with g; [lra|]. unfold Rdiv. rewrite Rmult_assoc, Rinv_l, Rmult_1_r by lra. lra. }
      assert (UM : 0 <= u * M) by (apply Rmult_le_pos; lra). assert (A1 : 4 * u * M * (Rabs (1 - val s) + val s) <= 4 * u * M * (3 / 2)) by (apply Rmult_le_compat_l; lra).
      assert (A2 : u * M * / 2 <= u * M * (T / g)) by (apply Rmult_le_compat_l; lra). lra. }
    destruct (Z.eq_dec c ca) as [-> |NA].
    + specialize (Z eq_refl). assert (R : exists r, at_interp_d (stamps e cs) vs (DecModel.DNum ca e) = Ok r /\ finite r /\ val r = val va).
      { destruct i as [|i].
        - destruct cs as [|c0 q]; [discriminate|]. destruct vs as [|v0 q']; [discriminate|]. injection TA as ->. injection VA as ->. exists va. split; [apply (interp_d_first e q (va :: q') ca ca va q' eq_refl); lia|]. split; [exact (proj1 (MVi 0%nat va eq_refl))| reflexivity].
        - exists (mix va vb s). split; [rewrite (interp_d_inside e cs vs ca (S i) ca cb va vb I TA TB VA VB LC ltac:(discriminate)), ES; reflexivity|]. split; [exact FM|]. apply VM, Z. }
      destruct R as (r & R1 & R2 & R3). exists r. split; [exact R1|]. split; [exact R2|]. split; [intros _; exact R3|]. split; [lia|]. rewrite R3, linear_at_a, Rminus_diag_eq, Rabs_R0 by reflexivity. exact P.
    + exists (mix va vb s). split; [exact (OK NA)|]. split; [exact FM|]. split; [congruence|]. split; [congruence|]. exact ERR.
Qed.

(** With decimal timestamps the weight can exceed 1: the numerator is the difference of two
    roundings.  Between 0 at 0.3 and 1 at 0.4, the value at 0.39999999999999999999 is greater
    than 1. *)
Lemma C130_decimal_refuted_pf : exists e ca cb c r, (ca < c < cb)%Z /\ (Z.abs ca < 10 ^ 27)%Z /\ (Z.abs cb < 10 ^ 27)%Z /\
  at_interp_d (stamps e [ca; cb]) [fzero; fone] (DecModel.DNum c e) = Ok r /\ finite r /\ val fzero = 0 /\ val fone = 1 /\ 1 < val r.
Proof.
  exists (-20)%Z, (3 * 10 ^ 19)%Z, (4 * 10 ^ 19)%Z, (4 * 10 ^ 19 - 1)%Z.
  assert (X : match at_interp_d (stamps (-20) [(3 * 10 ^ 19)%Z; (4 * 10 ^ 19)%Z]) [fzero; fone] (DecModel.DNum (4 * 10 ^ 19 - 1) (-20)) with Ok r => Bltb fone r && is_finite r | Err _ => false end = true) by (vm_compute; reflexivity).
  destruct (at_interp_d _ _ _) as [r|]; [|discriminate X]. apply andb_true_iff in X. destruct X as [L FR]. exists r. split; [lia|]. split; [lia|]. split; [lia|]. split; [reflexivity|]. split; [exact FR|]. split; [reflexivity|]. split; [apply fone_ok|].
  rewrite Bltb_correct in L by (exact FR || apply fone_ok). destruct (Rlt_bool_spec (B2R fone) (B2R r)) as [G|]; [|discriminate]. rewrite <- (proj2 fone_ok). exact G.
Qed.

(** Two different decimals can have a difference that is 0 as a float: the interpolation
    between timestamps 0 and 1e-400 divides by zero. *)
Lemma C130_decimal_division_refuted_pf : exists e ca cb c va vb, (ca < c < cb)%Z /\ (Z.abs ca < 10 ^ 27)%Z /\ (Z.abs cb < 10 ^ 27)%Z /\ finite va /\ finite vb /\
  at_interp_d (stamps e [ca; cb]) [va; vb] (DecModel.DNum c e) = Err PyZeroDivisionError.
Proof. exists (-401)%Z, 0%Z, 10%Z, 5%Z, fzero, fone. split; [lia|]. split; [lia|]. split; [lia|]. split; [reflexivity|]. split; [apply fone_ok|]. vm_compute. reflexivity. Qed.

(** The timestamps that upsample inserts, as rounded sums. *)
Lemma grid ta tb n : within 1000 ta -> within 1000 tb -> val ta < val tb -> (Z.of_nat n + 1 <= 2 ^ 50)%Z -> bpow radix2 (-950) <= val tb - val ta ->
  exists X D, inserted ta tb n = Ok (map X (List.seq 1 n)) /\ Rabs (D - (val tb - val ta) / (INR n + 1)) <= 4 * u * ((val tb - val ta) / (INR n + 1)) /\
    forall i, (1 <= i <= n)%nat -> finite (X i) /\ exists y, val (X i) = nearest (y + val ta) /\ fmt y /\ 0 <= y <= val tb - val ta /\ Rabs (y - INR i * D) <= 2 * u * (INR i * D).
Proof.
  intros A B H HN HG. destruct (fsub_ok tb ta 1000 ltac:(lia) B A) as [[FG BG] VG]. set (g := val tb - val ta) in *. pose proof (bpow_gt_0 radix2 (-950)) as P950.
  assert (U : 0 < u <= / 1000000) by (rewrite u_val; lra). pose proof eta_pos as EP.
  destruct (nearest_diff (val tb) (val ta) (fmt_val _) (fmt_val _)) as (d0 & D0 & Q0). fold g in Q0. rewrite Q0 in VG.
  assert (NZ : IZR (Z.of_nat n + 1) = INR n + 1) by (rewrite plus_IZR, <- INR_IZR_INZ; reflexivity).
  destruct (fint_ok (Z.of_nat n + 1) ltac:(lia)) as [FN VN]. rewrite NZ in VN. pose proof (pos_INR n) as PN. set (N := INR n + 1) in *. assert (N1 : 1 <= N) by (unfold N; lra).
  assert (NB : N <= bpow radix2 50). { rewrite <- NZ. change (bpow radix2 50) with (IZR (2 ^ 50)). apply IZR_le, HN. }
  apply Rabs_le_inv in D0. assert (GP : 0 < g * (1 + d0) <= 2 * g) by nra.
  set (h := g / N). assert (HH : h * N = g) by (unfold h; field; lra). assert (HP : 0 < h) by (apply Rmult_lt_0_compat; [lra| apply Rinv_0_lt_compat; lra]).
  assert (EH : 1000 * eta <= u * h).
  { assert (X : bpow radix2 (-1000) <= h). { apply Rmult_le_reg_r with N; [lra|]. rewrite HH. apply Rle_trans with (bpow radix2 (-1000) * bpow radix2 50); [apply Rmult_le_compat_l; [apply bpow_ge_0| exact NB]|]. rewrite <- bpow_plus. exact HG. }
    apply Rle_trans with (u * bpow radix2 (-1000)); [|apply Rmult_le_compat_l; lra]. unfold u, eta. rewrite <- bpow_plus. change (-53 + -1000)%Z with (22 + -1075)%Z. rewrite bpow_plus. apply Rmult_le_compat_r; [apply bpow_ge_0|]. cbn. lra. }
  assert (GU : g <= bpow radix2 1001). { destruct A as [_ A]. destruct B as [_ B]. replace (bpow radix2 1001) with (bpow radix2 1000 * 2) by (symmetry; exact (bpow_plus radix2 1000 1)). apply Rabs_le_inv in A, B. unfold g. lra. }
  destruct (fdiv_ok (fsub tb ta) (fint (Z.of_nat n + 1)) 1002 ltac:(lia) FG FN ltac:(rewrite VN; lra)) as (q & EQ & [FQ BQ] & VQ).
  { rewrite VG, VN. assert (X : 0 <= g * (1 + d0) / N <= 2 * g). { split; [apply Rmult_le_pos; [lra| left; apply Rinv_0_lt_compat; lra]|]. apply Rmult_le_reg_r with N; [lra|]. unfold Rdiv. rewrite Rmult_assoc, Rinv_l, Rmult_1_r by lra. nra. }
    rewrite Rabs_pos_eq by lra. replace (bpow radix2 1002) with (bpow radix2 1001 * 2) by (symmetry; exact (bpow_plus radix2 1001 1)). lra. }
  rewrite VG, VN in VQ. set (D := val q) in *. replace (g * (1 + d0) / N) with (h * (1 + d0)) in VQ by (unfold h; field; lra).
  assert (DE : Rabs (D - h) <= 3 * u * h).
  { rewrite VQ. destruct (nearest_error (h * (1 + d0))) as (d1 & e1 & D1 & E1 & ->). apply Rabs_le_inv in D1, E1. replace (h * (1 + d0) * (1 + d1) + e1 - h) with (h * (d0 + d1 + d0 * d1) + e1) by ring.
    assert (X : Rabs (d0 + d1 + d0 * d1) <= 5 / 2 * u) by (apply Rabs_le; nra). apply Rabs_le_inv in X. apply Rabs_le. nra. }
  assert (DH : 99 / 100 * h <= D <= 101 / 100 * h) by (apply Rabs_le_inv in DE; nra). assert (ED : 900 * eta <= u * D) by nra.
  exists (fun i => fadd (fmul (fint (Z.of_nat i)) q) ta), D. split; [unfold inserted; rewrite EQ; reflexivity|]. split; [fold h; nra|].
  intros i [I1 I2]. assert (Ii : 1 <= INR i) by (change 1 with (INR 1); apply le_INR, I1). assert (In' : INR i <= N - 1) by (unfold N; replace (INR n + 1 - 1) with (INR n) by ring; apply le_INR, I2).
  destruct (fint_ok (Z.of_nat i) ltac:(lia)) as [FI VI]. rewrite <- INR_IZR_INZ in VI. pose proof (Rmult_lt_0_compat _ _ HP (proj1 U)) as HU.
  assert (UN : u * N <= / 8). { apply Rle_trans with (u * bpow radix2 50); [apply Rmult_le_compat_l; lra|]. unfold u. rewrite <- bpow_plus. cbn. lra. }
  assert (ID : INR i * D <= (N - 1) * h + / 2 * h). { apply Rle_trans with ((N - 1) * D); [apply Rmult_le_compat_r; lra|]. apply Rabs_le_inv in DE. assert ((N - 1) * (D - h) <= (N - 1) * (3 * u * h)) by (apply Rmult_le_compat_l; lra). assert (u * N * h <= / 8 * h) by (apply Rmult_le_compat_r; lra). nra. }
  assert (ID0 : D <= INR i * D) by nra.
  destruct (fmul_ok (fint (Z.of_nat i)) q 1002 ltac:(lia) FI FQ) as [[FY BY] VY].
  { rewrite VI. fold D. rewrite Rabs_pos_eq by lra. replace (bpow radix2 1002) with (bpow radix2 1001 * 2) by (symmetry; exact (bpow_plus radix2 1001 1)). nra. }
  rewrite VI in VY. fold D in VY. set (y := val (fmul (fint (Z.of_nat i)) q)) in *.
  assert (YE : Rabs (y - INR i * D) <= 2 * u * (INR i * D)). { rewrite VY. refine (Rle_trans _ _ _ (abs_nearest _) _). rewrite Rabs_pos_eq by lra. assert (u * D <= u * (INR i * D)) by (apply Rmult_le_compat_l; lra). lra. }
  assert (Y0 : 0 <= y) by (rewrite VY; apply nearest_ge0; lra).
  assert (Y1 : y <= g). { apply Rabs_le_inv in YE. assert (u * (INR i * D) <= u * ((N - 1) * h + / 2 * h)) by (apply Rmult_le_compat_l; lra). assert (u * N * h <= / 8 * h) by (apply Rmult_le_compat_r; lra). nra. }
  destruct (fadd_ok (fmul (fint (Z.of_nat i)) q) ta 1002 ltac:(lia)) as [[FX _] VX]; [split; [exact FY| exact BY]| split; [exact (proj1 A)| refine (Rle_trans _ _ _ (proj2 A) _); apply bpow_le; lia]|].
  split; [exact FX|]. exists y. split; [exact VX|]. split; [apply fmt_val|]. split; [split; assumption| exact YE].
Qed.

(** The timestamps that upsample inserts between two others are between them, and off the
    equidistant ones by no more than 2^-50 of the distance and the sizes of the two. *)
Lemma C130_inserted_pf : forall ta tb n, moderate ta -> moderate tb -> val ta < val tb -> (Z.of_nat n + 1 <= 2 ^ 50)%Z -> / 2 ^ 950 <= val tb - val ta ->
  exists l, inserted ta tb n = Ok l /\ length l = n /\ forall i x, nth_error l i = Some x -> finite x /\ val ta <= val x <= val tb /\
    Rabs (val x - (val ta + (INR i + 1) * ((val tb - val ta) / (INR n + 1)))) <= / 2 ^ 50 * (val tb - val ta + Rmax (Rabs (val ta)) (Rabs (val tb))).
Proof.
  intros ta tb n A B H HN HG. apply moderate_within in A, B. rewrite two_inv in HG. change (- Z.of_nat 950)%Z with (-950)%Z in HG.
  destruct (grid ta tb n A B H HN HG) as (X & D & E & HD & K). exists (map X (List.seq 1 n)). split; [exact E|]. split; [rewrite map_length, seq_length; reflexivity|].
  intros i x Hx. assert (L : (i < n)%nat) by (rewrite <- (seq_length n 1), <- (map_length X); apply nth_error_Some; congruence).
  rewrite nth_error_map in Hx. rewrite (nth_error_nth' (List.seq 1 n) 0%nat) in Hx by (rewrite seq_length; exact L). rewrite seq_nth in Hx by exact L. cbn in Hx. injection Hx as <-.
  destruct (K (S i) ltac:(lia)) as (F & y & V & FY & Y & YE). split; [exact F|]. rewrite V. assert (T : val ta <= nearest (y + val ta) <= val tb) by (split; [apply nearest_ge_fmt| apply nearest_le_fmt]; try apply fmt_val; lra). split; [exact T|].
  destruct (nearest_sum y (val ta) FY (fmt_val ta)) as (d & Dd & ->). rewrite S_INR in YE. set (g := val tb - val ta) in *. set (h := g / (INR n + 1)) in *. pose proof (pos_INR n) as PN. pose proof (pos_INR i) as PI.
  assert (IN : INR i + 1 <= INR n) by (rewrite <- S_INR; apply le_INR; lia). assert (G0 : 0 < g) by (unfold g; lra). assert (HH : h * (INR n + 1) = g) by (unfold h; field; lra). assert (HP : 0 < h) by (apply Rmult_lt_0_compat; [lra| apply Rinv_0_lt_compat; lra]).
  assert (K0 : 0 < INR i + 1) by lra. set (k := INR i + 1) in *. assert (KN : k * h <= INR n * h) by (apply Rmult_le_compat_r; lra). assert (KP : 0 < k * h) by (apply Rmult_lt_0_compat; assumption). assert (KH : 0 <= k * h <= g) by lra. assert (U : 0 < u <= / 1000000) by (rewrite u_val; lra).
  set (T0 := Rmax (Rabs (val ta)) (Rabs (val tb))). assert (YT : Rabs (y + val ta) <= T0). { pose proof (Rmax_l (Rabs (val ta)) (Rabs (val tb))) as M1. pose proof (Rmax_r (Rabs (val ta)) (Rabs (val tb))) as M2. fold T0 in M1, M2. apply Rabs_le_inv in M1, M2. apply Rabs_le. unfold g in Y. lra. }
  assert (E1 : Rabs ((y + val ta) * d) <= u * T0) by (rewrite Rabs_mult, (Rmult_comm u); apply Rmult_le_compat; try apply Rabs_pos; assumption).
  assert (E2 : Rabs (k * D - k * h) <= 4 * u * g). { replace (k * D - k * h) with (k * (D - h)) by ring. rewrite Rabs_mult, (Rabs_pos_eq k) by (unfold k; lra). apply Rle_trans with (k * (4 * u * h)); [apply Rmult_le_compat_l; [unfold k; lra| exact HD]|]. nra. }
  assert (E3 : Rabs (y - k * h) <= 7 * u * g). { apply Rabs_le_inv in E2, YE. apply Rabs_le. assert (k * D <= 11 / 10 * g) by nra. assert (u * (k * D) <= u * (11 / 10 * g)) by (apply Rmult_le_compat_l; lra). lra. }
  replace ((y + val ta) * (1 + d) - (val ta + k * h)) with ((y - k * h) + (y + val ta) * d) by ring. refine (Rle_trans _ _ _ (Rabs_triang _ _) _).
  replace (/ 2 ^ 50) with (8 * u) by (rewrite u_val; lra). assert (0 <= u * g) by (apply Rmult_le_pos; lra). assert (0 <= u * T0) by (apply Rmult_le_pos; [lra| refine (Rle_trans _ _ _ (Rabs_pos _) YT)]). lra.
Qed.

Lemma sorted_seq (X : nat -> R) n : forall s, (forall i j, (s <= i)%nat -> (i < j)%nat -> (j < s + n)%nat -> X i < X j) -> StronglySorted Rlt (map X (List.seq s n)).
Proof.
  induction n as [|n IH]; intros s H; [constructor|]. cbn [List.seq map]. constructor; [apply IH; intros i j A B C; apply H; lia|].
  apply Forall_forall. intros x Hx. apply in_map_iff in Hx. destruct Hx as (j & <- & Hj). apply in_seq in Hj. apply H; lia.
Qed.

Lemma few ta tb n : val ta < val tb -> (INR n + 1) * (/ 2 ^ 49 * Rmax (Rabs (val ta)) (Rabs (val tb))) <= val tb - val ta -> (Z.of_nat n + 1 <= 2 ^ 50)%Z.
Proof.
  intros H K. apply le_IZR. rewrite plus_IZR, <- INR_IZR_INZ. set (T := Rmax (Rabs (val ta)) (Rabs (val tb))) in *. assert (GT : val tb - val ta <= 2 * T).
  { unfold T. pose proof (Rmax_l (Rabs (val ta)) (Rabs (val tb))). pose proof (Rmax_r (Rabs (val ta)) (Rabs (val tb))). pose proof (Rle_abs (val tb)). pose proof (Rle_abs (- val ta)). rewrite Rabs_Ropp in H3. lra. }
  assert (TP : 0 < T) by lra. apply Rmult_le_reg_r with (/ 2 ^ 49 * T); [apply Rmult_lt_0_compat; [apply Rinv_0_lt_compat, pow_lt; lra| exact TP]|]. refine (Rle_trans _ _ _ K _). refine (Rle_trans _ _ _ GT _). right. change (2 ^ 50)%Z with 1125899906842624%Z. field.
Qed.

(** If the timestamps are fine enough, the inserted ones increase strictly and are strictly
    between the two. *)
Lemma inserted_sorted ta tb n : within 1000 ta -> within 1000 tb -> val ta < val tb -> bpow radix2 (-950) <= val tb - val ta -> (INR n + 1) * (/ 2 ^ 49 * Rmax (Rabs (val ta)) (Rabs (val tb))) <= val tb - val ta ->
  exists l, inserted ta tb n = Ok l /\ length l = n /\ Forall finite l /\ StronglySorted Rlt (map val l) /\ forall x, In x l -> val ta < val x < val tb.
Proof.
  intros A B H HG HK. pose proof (few ta tb n H HK) as HN. destruct (grid ta tb n A B H HN HG) as (X & D & E & HD & K). exists (map X (List.seq 1 n)).
  set (g := val tb - val ta) in *. set (T := Rmax (Rabs (val ta)) (Rabs (val tb))) in *. set (h := g / (INR n + 1)) in *. pose proof (pos_INR n) as PN. assert (G0 : 0 < g) by (unfold g; lra).
  assert (HH : h * (INR n + 1) = g) by (unfold h; field; lra). assert (HP : 0 < h) by (apply Rmult_lt_0_compat; [lra| apply Rinv_0_lt_compat; lra]). assert (U : 0 < u <= / 1000000) by (rewrite u_val; lra).
  assert (HT : 16 * u * T <= h). { apply Rmult_le_reg_r with (INR n + 1); [lra|]. rewrite HH. replace (16 * u) with (/ 2 ^ 49) by (rewrite u_val; lra). lra. }
  assert (T0 : 0 <= T) by (apply Rle_trans with (Rabs (val ta)); [apply Rabs_pos| apply Rmax_l]).
  assert (UN : u * (INR n + 1) <= / 8). { replace (INR n + 1) with (IZR (Z.of_nat n + 1)) by (rewrite plus_IZR, <- INR_IZR_INZ; reflexivity). apply Rle_trans with (u * IZR (2 ^ 50)); [apply Rmult_le_compat_l; [lra| apply IZR_le, HN]|]. rewrite u_val. lra. }
  assert (DH : 99 / 100 * h <= D <= 101 / 100 * h) by (apply Rabs_le_inv in HD; nra).
  assert (YT : forall y, 0 <= y <= g -> Rabs (y + val ta) <= T). { intros y Y. pose proof (Rmax_l (Rabs (val ta)) (Rabs (val tb))) as M1. pose proof (Rmax_r (Rabs (val ta)) (Rabs (val tb))) as M2. fold T in M1, M2. apply Rabs_le_inv in M1, M2. apply Rabs_le. unfold g in Y. lra. }
  assert (SUM : forall y, fmt y -> 0 <= y <= g -> Rabs (nearest (y + val ta) - (y + val ta)) <= u * T).
  { intros y FY Y. destruct (nearest_sum y (val ta) FY (fmt_val ta)) as (d & Dd & ->). replace ((y + val ta) * (1 + d) - (y + val ta)) with ((y + val ta) * d) by ring. rewrite Rabs_mult, (Rmult_comm u). apply Rmult_le_compat; try apply Rabs_pos; [apply YT, Y| exact Dd]. }
  assert (POS : forall i, (1 <= i <= n)%nat -> exists e, Rabs e <= / 4 * D + u * T /\ val (X i) = val ta + INR i * D + e).
  { intros i Hi. destruct (K i Hi) as (_ & y & V & FY & Y & YE). specialize (SUM y FY Y). rewrite <- V in SUM. exists (val (X i) - (val ta + INR i * D)). split; [|ring].
    assert (IN : INR i <= INR n) by (apply le_INR, Hi). assert (I0 : 0 <= INR i) by apply pos_INR. assert (ID : u * (INR i * D) <= / 8 * D). { rewrite <- Rmult_assoc. apply Rmult_le_compat_r; [lra|]. apply Rle_trans with (u * (INR n + 1)); [apply Rmult_le_compat_l; lra| exact UN]. }
    apply Rabs_le_inv in YE, SUM. apply Rabs_le. lra. }
  split; [exact E|]. split; [rewrite map_length, seq_length; reflexivity|]. split; [apply Forall_forall; intros x Hx; apply in_map_iff in Hx; destruct Hx as (i & <- & Hi); apply in_seq in Hi; apply K; lia|]. split.
  - rewrite map_map. apply sorted_seq. intros i j I1 IJ J. destruct (POS i ltac:(lia)) as (e1 & E1 & ->). destruct (POS j ltac:(lia)) as (e2 & E2 & ->). assert (IJ' : INR i + 1 <= INR j) by (rewrite <- S_INR; apply le_INR; lia).
    apply Rabs_le_inv in E1, E2. assert ((INR i + 1) * D <= INR j * D) by (apply Rmult_le_compat_r; lra). lra.
  - intros x Hx. apply in_map_iff in Hx. destruct Hx as (i & <- & Hi). apply in_seq in Hi. destruct (POS i ltac:(lia)) as (e1 & E1 & ->). assert (I1 : 1 <= INR i) by (change 1 with (INR 1); apply le_INR; lia). assert (I2 : INR i <= INR n) by (apply le_INR; lia).
    apply Rabs_le_inv in E1. assert (1 * D <= INR i * D) by (apply Rmult_le_compat_r; lra). assert (INR i * D <= INR n * D) by (apply Rmult_le_compat_r; lra). split; [lra|].
    assert (ND : INR n * D <= INR n * h + / 2 * h). { apply Rabs_le_inv in HD. assert (INR n * (D - h) <= INR n * (4 * u * h)) by (apply Rmult_le_compat_l; lra). assert (u * (INR n + 1) * h <= / 8 * h) by (apply Rmult_le_compat_r; lra). assert (0 <= u * h) by (apply Rmult_le_pos; lra). nra. }
    fold g. unfold g in *. lra.
Qed.

Lemma at_f_ok ts : forall vs i a v, Forall finite ts -> increasing ts -> nth_error ts i = Some a -> nth_error vs i = Some v -> at_f ts vs a = Ok v.
Proof.
  induction ts as [|t0 r IH]; intros vs i a v F I TA VA; [destruct i; discriminate|]. inversion F as [|? ? F0 FR]; subst. unfold increasing in I. cbn [map] in I. inversion I as [|? ? I1 I2]; subst.
  assert (FA : finite a) by (rewrite Forall_forall in F; exact (F a (nth_error_In _ _ TA))).
  destruct i as [|i]; cbn in TA.
  - injection TA as ->. destruct vs as [|v0 w]; [discriminate|]. cbn in VA |- *. injection VA as ->. rewrite Beqb_correct by assumption. rewrite Req_bool_true by reflexivity. reflexivity.
  - destruct vs as [|v0 w]; [discriminate|]. cbn in VA |- *. rewrite Beqb_correct by assumption. rewrite Forall_forall in I2. specialize (I2 (val a) (in_map val _ _ (nth_error_In _ _ TA))).
    rewrite Req_bool_false by (unfold val in I2; lra). exact (IH w i a v FR I1 TA VA).
Qed.

Lemma mapM_all {A B} (f : A -> result B) l : (forall x, In x l -> exists r, f x = Ok r) -> exists ys, rmapM f l = Ok ys /\ length ys = length l /\ forall x y, In (x, y) (combine l ys) -> f x = Ok y.
Proof.
  induction l as [|a l IH]; intros H; [exists []; repeat split; intros x y []|]. destruct (H a (or_introl eq_refl)) as [b E]. destruct IH as (ys & E2 & L & K); [intros x Hx; apply H; right; exact Hx|].
  exists (b :: ys). split; [cbn [rmapM]; rewrite E, E2; reflexivity|]. split; [cbn; lia|]. intros x y [Q|Q]; [injection Q as -> ->; exact E| exact (K x y Q)].
Qed.

Lemma combine_fst {A B} (l : list A) (m : list B) : length m = length l -> map fst (combine l m) = l.
Proof. revert m. induction l as [|a l IH]; intros [|b m] H; try discriminate; [reflexivity|]. cbn. rewrite IH by (cbn in H; lia). reflexivity. Qed.

Lemma combine_nth_fst {A B} (l : list A) (m : list B) j x : length m = length l -> nth_error l j = Some x -> exists y, nth_error (combine l m) j = Some (x, y).
Proof. revert m j. induction l as [|a l IH]; intros [|b m] j H E; try discriminate; [destruct j; discriminate|]. destruct j as [|j]; cbn in *; [injection E as ->; eauto|]. apply IH; [lia| exact E]. Qed.

Lemma sorted_app (l m : list R) : StronglySorted Rlt l -> StronglySorted Rlt m -> (forall x y, In x l -> In y m -> x < y) -> StronglySorted Rlt (l ++ m).
Proof.
  induction l as [|a l IH]; intros L M H; [exact M|]. inversion L as [|? ? L1 L2]; subst. cbn. constructor; [apply IH; [exact L1| exact M| intros x y X Y; apply H; [right; exact X| exact Y]]|].
  apply Forall_app. split; [exact L2|]. apply Forall_forall. intros y Y. apply H; [left; reflexivity| exact Y].
Qed.

Lemma up_ok ts vs n l : length ts = length vs -> Forall moderate ts -> Forall moderate vs -> increasing ts -> fine n ts -> forall pre vpre vl, ts = pre ++ l -> vs = vpre ++ vl -> length pre = length vpre -> length l = length vl -> l <> [] ->
  exists q, up_points n ts vs l = Ok q /\ length q = ((length l - 1) * (n + 1) + 1)%nat /\ Forall (fun p => finite (fst p)) q /\ (forall a, nth_error l 0 = Some a -> exists v q', q = (a, v) :: q') /\
    StronglySorted Rlt (map (fun p => val (fst p)) q) /\ (forall i t v, nth_error l i = Some t -> nth_error vl i = Some v -> nth_error q (i * (n + 1)) = Some (t, v)) /\
    (forall x w, In (x, w) q -> exists r, at_interp_f ts vs x = Ok r /\ val w = val r) /\
    (forall i a b us, nth_error l i = Some a -> nth_error l (S i) = Some b -> inserted a b n = Ok us -> forall j x, nth_error us j = Some x -> exists w, nth_error q (i * (n + 1) + 1 + j) = Some (x, w)).
Proof.
  intros L MT MV I FN. assert (FT : Forall finite ts) by (eapply Forall_impl; [|exact MT]; intros x X; exact (proj1 X)).
  assert (OWN : forall i a v, nth_error ts i = Some a -> nth_error vs i = Some v -> at_f ts vs a = Ok v /\ exists r, at_interp_f ts vs a = Ok r /\ val v = val r).
  { intros i a v TA VA. split; [exact (at_f_ok ts vs i a v FT I TA VA)|]. rewrite Forall_forall in MT. destruct (at_sample ts vs a i a v) as (r & R1 & _ & R2); try assumption; [apply Forall_forall; exact MT| exact (MT a (nth_error_In _ _ TA))| reflexivity|]. exists r. split; [exact R1| congruence]. }
  induction l as [|a [|b r] IH]; intros pre vpre vl ET EV LP LV NE; [contradiction| |].
  - destruct vl as [|v [|v' vl]]; try discriminate. assert (TA : nth_error ts (length pre) = Some a) by (rewrite ET, nth_error_app2, Nat.sub_diag by lia; reflexivity). assert (VA : nth_error vs (length pre) = Some v) by (rewrite EV, LP, nth_error_app2, Nat.sub_diag by lia; reflexivity).
    destruct (OWN _ _ _ TA VA) as [O1 O2]. exists [(a, v)]. split; [cbn [up_points]; rewrite O1; reflexivity|]. split; [reflexivity|]. split; [constructor; [|constructor]; rewrite Forall_forall in FT; exact (FT a (nth_error_In _ _ TA))|].
    split; [intros a' Q; injection Q as <-; eexists _, _; reflexivity|]. split; [repeat constructor|]. split; [intros [|i] t v' Q1 Q2; [injection Q1 as <-; injection Q2 as <-; reflexivity| destruct i; discriminate]|].
    split; [intros x w [Q|[]]; injection Q as <- <-; exact O2|]. intros [|i] a' b' us _ Q; [discriminate| destruct i; discriminate].
  - destruct vl as [|v vl]; [discriminate|]. assert (TA : nth_error ts (length pre) = Some a) by (rewrite ET, nth_error_app2, Nat.sub_diag by lia; reflexivity). assert (VA : nth_error vs (length pre) = Some v) by (rewrite EV, LP, nth_error_app2, Nat.sub_diag by lia; reflexivity).
    assert (TB : nth_error ts (S (length pre)) = Some b) by (rewrite ET, nth_error_app2 by lia; replace (S (length pre) - length pre)%nat with 1%nat by lia; reflexivity).
    destruct (OWN _ _ _ TA VA) as [O1 O2]. destruct (IH (pre ++ [a]) (vpre ++ [v]) vl) as (q & E & LQ & FQ & HQ & SQ & NQ & IQ & UQ); [rewrite <- app_assoc; exact ET| rewrite <- app_assoc; exact EV| rewrite !app_length; cbn; lia| cbn in *; lia| discriminate|]. clear IH.
    rewrite Forall_forall in MT, FT. pose proof (MT a (nth_error_In _ _ TA)) as MA. pose proof (MT b (nth_error_In _ _ TB)) as MB. pose proof (increasing_nth ts _ _ a b I (Nat.lt_succ_diag_r _) TA TB) as AB.
    destruct (FN _ a b TA TB) as [G1 G2]. rewrite two_inv in G1. change (- Z.of_nat 950)%Z with (-950)%Z in G1.
    destruct (inserted_sorted a b n ltac:(apply moderate_within; exact MA) ltac:(apply moderate_within; exact MB) AB G1 G2) as (us & EU & LU & FU & SU & BU).
    assert (MU : forall x, In x us -> moderate x). { intros x Hx. rewrite Forall_forall in FU. split; [exact (FU x Hx)|]. destruct (BU x Hx) as [B1 B2]. destruct MA as [_ MA]. destruct MB as [_ MB]. apply Rabs_le_inv in MA, MB. apply Rabs_le. set (K := 2 ^ 1000) in *. lra. }
    destruct (mapM_all (at_interp_f ts vs) us) as (ws & EW & LW & KW).
    { intros x Hx. destruct (C130_interpolation_pf ts vs x L ltac:(intros Q; rewrite Q in TA; destruct (length pre); discriminate) ltac:(apply Forall_forall; exact MT) MV I (MU x Hx)) as (y & Y & _). exists y. exact Y. }
    destruct (HQ b eq_refl) as (vb & q' & HQ'). exists ((a, v) :: combine us ws ++ q).
    split; [change (up_points n ts vs (a :: b :: r)) with (match at_f ts vs a with Err e => Err e | Ok v => match inserted a b n with Err e => Err e | Ok us => match rmapM (at_interp_f ts vs) us with Err e => Err e | Ok ws => match up_points n ts vs (b :: r) with Err e => Err e | Ok q => Ok ((a, v) :: app (combine us ws) q) end end end end); rewrite O1, EU, EW, E; reflexivity|].
    assert (LC : length (combine us ws) = n) by (rewrite combine_length, LW, LU; lia).
    split; [cbn [length]; rewrite app_length, LC, LQ; cbn [length]; nia|].
    split; [constructor; [exact (proj1 MA)|]; apply Forall_app; split; [|exact FQ]; apply Forall_forall; intros [x w] Hx; apply in_combine_l in Hx; rewrite Forall_forall in FU; exact (FU x Hx)|].
    split; [intros a' Q; injection Q as <-; eexists _, _; reflexivity|].
    assert (QB : forall y, In y (map (fun p => val (fst p)) q) -> val b <= y). { intros y Hy. rewrite HQ' in Hy, SQ. cbn [map fst] in Hy, SQ. destruct Hy as [<-|Hy]; [lra|]. inversion SQ as [|? ? _ S2]; subst. rewrite Forall_forall in S2. left. exact (S2 y Hy). }
    assert (MC : map (fun p => val (fst p)) (combine us ws) = map val us) by (rewrite <- (combine_fst us ws LW) at 2; rewrite map_map; reflexivity).
    split; [cbn [map fst]; rewrite map_app, MC; constructor|].
    + apply sorted_app; [exact SU| exact SQ|]. intros x y Hx Hy. apply in_map_iff in Hx. destruct Hx as (z & <- & Hz). specialize (BU z Hz). specialize (QB y Hy). lra.
    + apply Forall_app. split; apply Forall_forall; intros y Hy; [apply in_map_iff in Hy; destruct Hy as (z & <- & Hz); apply BU, Hz| specialize (QB y Hy); lra].
    + split; [|split].
      * intros [|i] t w Q1 Q2; [injection Q1 as <-; injection Q2 as <-; reflexivity|]. replace (S i * (n + 1))%nat with (S (n + i * (n + 1))) by lia. cbn [nth_error]. rewrite nth_error_app2 by lia. rewrite LC. replace (n + i * (n + 1) - n)%nat with (i * (n + 1))%nat by lia. exact (NQ i t w Q1 Q2).
      * intros x w [Q|Q]; [injection Q as <- <-; exact O2|]. apply in_app_or in Q. destruct Q as [Q|Q]; [|exact (IQ x w Q)]. exists w. split; [exact (KW x w Q)| reflexivity].
      * intros [|i] a' b' us' Q1 Q2 Q3 j x Q4.
        -- injection Q1 as <-. injection Q2 as <-. assert (us' = us) by congruence. subst us'. destruct (combine_nth_fst us ws j x LW Q4) as [w W]. exists w. cbn [Nat.mul Nat.add nth_error]. rewrite nth_error_app1; [exact W|]. rewrite LC, <- LU. apply nth_error_Some. congruence.
        -- destruct (UQ i a' b' us' Q1 Q2 Q3 j x Q4) as [w W]. exists w. replace (S i * (n + 1) + 1 + j)%nat with (S (n + (i * (n + 1) + 1 + j))) by lia. cbn [nth_error]. rewrite nth_error_app2 by lia. rewrite LC. replace (n + (i * (n + 1) + 1 + j) - n)%nat with (i * (n + 1) + 1 + j)%nat by lia. exact W.
Qed.

(** Upsampling a trajectory whose timestamps are fine enough: the result is accepted by the
    constructor; its timestamps increase strictly; there are n more between any two of the
    trajectory, which C130_inserted_pf is about; the samples of the trajectory are kept with
    their values, and all values are those of the interpolation. *)
Lemma C130_upsample_pf : forall ts vs n, length ts = length vs -> ts <> [] -> Forall moderate ts -> Forall moderate vs -> increasing ts -> fine n ts ->
  exists us ws, upsample_f ts vs n = Ok (us, ws) /\ length us = ((length ts - 1) * (n + 1) + 1)%nat /\ length ws = length us /\ Forall finite us /\ increasing us /\
    (forall i t v, nth_error ts i = Some t -> nth_error vs i = Some v -> nth_error us (i * (n + 1)) = Some t /\ nth_error ws (i * (n + 1)) = Some v) /\
    (forall i a b, nth_error ts i = Some a -> nth_error ts (S i) = Some b -> exists l, inserted a b n = Ok l /\ length l = n /\ forall j x, nth_error l j = Some x -> nth_error us (i * (n + 1) + 1 + j) = Some x) /\
    (forall j x w, nth_error us j = Some x -> nth_error ws j = Some w -> exists r, at_interp_f ts vs x = Ok r /\ val w = val r).
Proof.
  intros ts vs n L NE MT MV I FN. destruct (up_ok ts vs n ts L MT MV I FN [] [] vs eq_refl eq_refl eq_refl L NE) as (q & E & LQ & FQ & _ & SQ & NQ & IQ & UQ).
  assert (FU : Forall finite (map fst q)) by (apply Forall_map; exact FQ). assert (SU : increasing (map fst q)) by (unfold increasing; rewrite map_map; exact SQ).
  exists (map fst q), (map snd q). split; [unfold upsample_f; rewrite E, (proj2 (steps_increasing _ FU) SU); reflexivity|]. split; [rewrite map_length; exact LQ|]. split; [rewrite !map_length; reflexivity|]. split; [exact FU|]. split; [exact SU|]. split; [|split].
  - intros i t v Q1 Q2. rewrite !nth_error_map, (NQ i t v Q1 Q2). split; reflexivity.
  - intros i a b Q1 Q2. rewrite Forall_forall in MT. pose proof (MT a (nth_error_In _ _ Q1)) as MA. pose proof (MT b (nth_error_In _ _ Q2)) as MB. pose proof (increasing_nth ts _ _ a b I (Nat.lt_succ_diag_r _) Q1 Q2) as AB.
    destruct (FN _ a b Q1 Q2) as [G1 G2]. destruct (C130_inserted_pf a b n MA MB AB (few a b n AB G2) G1) as (l & E1 & E2 & _). exists l. split; [exact E1|]. split; [exact E2|].
    intros j x Q. destruct (UQ i a b l Q1 Q2 E1 j x Q) as [w W]. rewrite nth_error_map, W. reflexivity.
  - intros j x w Q1 Q2. rewrite nth_error_map in Q1, Q2. destruct (nth_error q j) as [[x' w']|] eqn:Q; [|discriminate]. cbn in Q1, Q2. assert (x' = x) by congruence. assert (w' = w) by congruence. subst. exact (IQ x w (nth_error_In _ _ Q)).
Qed.

(** Timestamps that are too close: between 1 and the next float there is no other, and
    upsample raises the ValueError of the constructor. *)
Lemma C130_upsample_refuted_pf : exists ts vs n, length ts = length vs /\ Forall moderate ts /\ Forall moderate vs /\ increasing ts /\ n <> 0%nat /\ upsample_f ts vs n = Err ZValueError.
Proof.
  set (nx := @B754_finite 53 1024 false 4503599627370497 (-52) eq_refl). exists [fone; nx], [fzero; fone], 1%nat.
  assert (M0 : moderate fzero) by (apply moderate_within; split; [reflexivity| change (val fzero) with 0; rewrite Rabs_R0; apply bpow_ge_0]).
  assert (M1 : moderate fone) by (apply moderate_within; split; [apply fone_ok| rewrite (proj2 fone_ok), Rabs_R1; exact (bpow_le radix2 0 1000 ltac:(lia))]).
  assert (VX : val nx = 4503599627370497 / 4503599627370496) by (unfold val, nx, B2R, F2R; cbn; lra).
  assert (MX : moderate nx) by (apply moderate_within; split; [reflexivity| rewrite VX; rewrite Rabs_pos_eq by lra; apply Rle_trans with (bpow radix2 1); [cbn; lra| apply bpow_le; lia]]).
  split; [reflexivity|]. split; [repeat (apply Forall_cons; [assumption|]); apply Forall_nil|]. split; [repeat (apply Forall_cons; [assumption|]); apply Forall_nil|].
  split; [unfold increasing; cbn [map]; rewrite (proj2 fone_ok), VX; repeat constructor; lra|]. split; [discriminate|]. vm_compute. reflexivity.
Qed.
