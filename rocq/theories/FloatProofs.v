(** Lemmas on binary64 arithmetic. *)
From Coq Require Import Reals ZArith List Bool Sorting.Sorted Lra Lia Psatz.
From Flocq Require Import Core IEEE754.BinarySingleNaN Relative Plus_error.
From Verif Require Import Base SeqModel FloatModel FloatSpec.
From Verif Require DecModel.
Import ListNotations.
Open Scope R_scope.

Notation fexp64 := (FLT_exp (-1074) 53).
Notation fmt := (generic_format radix2 fexp64).
Definition u : R := bpow radix2 (-53).
Definition eta : R := bpow radix2 (-1075).

#[global] Instance p53 : Prec_gt_0 53 := eq_refl.

Lemma u_val : u = / 9007199254740992.
Proof. unfold u. cbn. reflexivity. Qed.
Lemma u_pos : 0 < u. Proof. apply bpow_gt_0. Qed.
Lemma eta_pos : 0 < eta. Proof. apply bpow_gt_0. Qed.

Lemma nearest_le x y : x <= y -> nearest x <= nearest y.
Proof. intros H. apply round_le; [apply FLT_exp_valid; reflexivity| apply valid_rnd_N| exact H]. Qed.
Lemma nearest_id x : fmt x -> nearest x = x.
Proof. intros H. apply round_generic; [apply valid_rnd_N| exact H]. Qed.
Lemma fmt_0 : fmt 0. Proof. apply generic_format_0. Qed.
Lemma fmt_bpow k : (-1074 <= k)%Z -> fmt (bpow radix2 k).
Proof. intros H. apply generic_format_bpow'; [apply FLT_exp_valid; reflexivity|]. unfold FLT_exp. lia. Qed.
Lemma nearest_ge0 x : 0 <= x -> 0 <= nearest x.
Proof. intros H. rewrite <- (nearest_id 0 fmt_0). apply nearest_le, H. Qed.
Lemma nearest_le_fmt x y : fmt y -> x <= y -> nearest x <= y.
Proof. intros F H. rewrite <- (nearest_id y F). apply nearest_le, H. Qed.
Lemma nearest_ge_fmt x y : fmt y -> y <= x -> y <= nearest x.
Proof. intros F H. rewrite <- (nearest_id y F). apply nearest_le, H. Qed.
Lemma nearest_abs x k : (-1074 <= k)%Z -> Rabs x <= bpow radix2 k -> Rabs (nearest x) <= bpow radix2 k.
Proof.
  intros K H. apply Rabs_le. apply Rabs_le_inv in H. split; [|apply nearest_le_fmt; [apply fmt_bpow, K| lra]].
  apply nearest_ge_fmt; [apply generic_format_opp, fmt_bpow, K| lra].
Qed.

(** Relative and absolute errors. *)
Lemma nearest_error x : exists d e, Rabs d <= u /\ Rabs e <= eta /\ nearest x = x * (1 + d) + e.
Proof.
  destruct (error_N_FLT radix2 (-1074) 53 eq_refl (fun z => negb (Z.even z)) x) as (d & e & D & E & _ & H). exists d, e. split; [|split; [|exact H]].
  - refine (Rle_trans _ _ _ D _). unfold u_ro, u. replace (/2) with (bpow radix2 (-1)) by reflexivity. rewrite <- bpow_plus. apply bpow_le. lia.
  - refine (Rle_trans _ _ _ E _). unfold eta. replace (/2) with (bpow radix2 (-1)) by reflexivity. rewrite <- bpow_plus. apply bpow_le. lia.
Qed.
Lemma nearest_sum x y : fmt x -> fmt y -> exists d, Rabs d <= u /\ nearest (x + y) = (x + y) * (1 + d).
Proof.
  intros X Y. destruct (FLT_plus_error_N_ex radix2 (-1074) 53 (fun z => negb (Z.even z)) x y X Y) as (d & D & H). exists d. split; [|exact H].
  refine (Rle_trans _ _ _ D _). refine (Rle_trans _ _ _ (u_rod1pu_ro_le_u_ro radix2 53) _). unfold u_ro, u. replace (/2) with (bpow radix2 (-1)) by reflexivity. rewrite <- bpow_plus. apply bpow_le. lia.
Qed.
Lemma nearest_diff x y : fmt x -> fmt y -> exists d, Rabs d <= u /\ nearest (x - y) = (x - y) * (1 + d).
Proof. intros X Y. exact (nearest_sum x (- y) X (generic_format_opp _ _ _ Y)). Qed.
Lemma nearest_diff_pos x y : fmt x -> fmt y -> y < x -> 0 < nearest (x - y).
Proof.
  intros X Y H. destruct (nearest_diff x y X Y) as (d & D & ->). apply Rabs_le_inv in D. pose proof u_val. apply Rmult_lt_0_compat; [lra|]. assert (u < 1 / 2) by (rewrite u_val; lra). lra.
Qed.

(** *** The operations *)
Definition within (k : Z) (x : fl) : Prop := finite x /\ Rabs (val x) <= bpow radix2 k.

Lemma fmt_val x : fmt (val x).
Proof. exact (generic_format_B2R 53 1024 x). Qed.

Lemma no_overflow z k : (-1074 <= k < 1024)%Z -> Rabs z <= bpow radix2 k -> Rlt_bool (Rabs (round radix2 (SpecFloat.fexp 53 1024) (round_mode mode_NE) z)) (bpow radix2 1024) = true.
Proof.
  intros K H. apply Rlt_bool_true. apply Rle_lt_trans with (bpow radix2 k); [exact (nearest_abs z k (proj1 K) H)| apply bpow_lt; lia].
Qed.

Lemma fadd_ok x y k : (-1074 <= k < 1023)%Z -> within k x -> within k y -> within (k + 1) (fadd x y) /\ val (fadd x y) = nearest (val x + val y).
Proof.
  intros K [FX BX] [FY BY]. pose proof (Bplus_correct 53 1024 prec53 emax1024 mode_NE x y FX FY) as C.
  assert (B : Rabs (val x + val y) <= bpow radix2 (k + 1)).
  { rewrite bpow_plus. change (bpow radix2 1) with 2. pose proof (Rabs_triang (val x) (val y)). lra. }
  change (B2R x) with (val x) in C. change (B2R y) with (val y) in C.
  rewrite (no_overflow _ (k + 1)) in C by (lia || exact B). destruct C as (C1 & C2 & _). split; [split; [exact C2|]|exact C1].
  unfold val at 1, fadd. rewrite C1. apply nearest_abs; [lia| exact B].
Qed.
Lemma fsub_ok x y k : (-1074 <= k < 1023)%Z -> within k x -> within k y -> within (k + 1) (fsub x y) /\ val (fsub x y) = nearest (val x - val y).
Proof.
  intros K [FX BX] [FY BY]. pose proof (Bminus_correct 53 1024 prec53 emax1024 mode_NE x y FX FY) as C.
  assert (B : Rabs (val x - val y) <= bpow radix2 (k + 1)).
  { rewrite bpow_plus. change (bpow radix2 1) with 2. pose proof (Rabs_triang (val x) (- val y)). rewrite Rabs_Ropp in H. unfold Rminus. lra. }
  change (B2R x) with (val x) in C. change (B2R y) with (val y) in C.
  rewrite (no_overflow _ (k + 1)) in C by (lia || exact B). destruct C as (C1 & C2 & _). split; [split; [exact C2|]|exact C1].
  unfold val at 1, fsub. rewrite C1. apply nearest_abs; [lia| exact B].
Qed.
Lemma fmul_ok x y k : (-1074 <= k < 1024)%Z -> finite x -> finite y -> Rabs (val x * val y) <= bpow radix2 k -> within k (fmul x y) /\ val (fmul x y) = nearest (val x * val y).
Proof.
  intros K FX FY B. pose proof (Bmult_correct 53 1024 prec53 emax1024 mode_NE x y) as C.
  change (B2R x) with (val x) in C. change (B2R y) with (val y) in C.
  rewrite (no_overflow _ k) in C by (lia || exact B). destruct C as (C1 & C2 & _). unfold finite in *. rewrite FX, FY in C2. split; [split; [exact C2|]|exact C1].
  unfold val at 1, fmul. rewrite C1. apply nearest_abs; [lia| exact B].
Qed.
Lemma fdiv_ok x y k : (-1074 <= k < 1024)%Z -> finite x -> finite y -> val y <> 0 -> Rabs (val x / val y) <= bpow radix2 k -> exists q, fdiv x y = Ok q /\ within k q /\ val q = nearest (val x / val y).
Proof.
  intros K FX FY NZ B. unfold fdiv. assert (E : Beqb y fzero = false).
  { rewrite Beqb_correct by (exact FY || reflexivity). cbn [B2R fzero]. apply Req_bool_false. exact NZ. }
  rewrite E. eexists. split; [reflexivity|]. pose proof (Bdiv_correct 53 1024 prec53 emax1024 mode_NE x y NZ) as C.
  change (B2R x) with (val x) in C. change (B2R y) with (val y) in C.
  rewrite (no_overflow _ k) in C by (lia || exact B). destruct C as (C1 & C2 & _). split; [split; [unfold finite; rewrite C2; exact FX|]|exact C1].
  unfold val at 1. rewrite C1. apply nearest_abs; [lia| exact B].
Qed.
Lemma fle_ok x y : finite x -> finite y -> fle x y = true <-> val x <= val y.
Proof. intros FX FY. unfold fle. rewrite Bleb_correct by assumption. split; intros H; [|apply Rle_bool_true, H]. destruct (Rle_bool_spec (B2R x) (B2R y)); [assumption| discriminate]. Qed.
Lemma fle_no x y : finite x -> finite y -> fle x y = false <-> val y < val x.
Proof. intros FX FY. unfold fle. rewrite Bleb_correct by assumption. split; intros H; [|apply Rle_bool_false, H]. destruct (Rle_bool_spec (B2R x) (B2R y)); [discriminate| assumption]. Qed.

Lemma fint_ok z : (Z.abs z <= 2 ^ 53)%Z -> finite (fint z) /\ val (fint z) = IZR z.
Proof.
  intros H. pose proof (binary_normalize_correct 53 1024 prec53 emax1024 mode_NE z 0 false) as C. cbv zeta in C.
  assert (E : F2R (Float radix2 z 0) = IZR z) by (unfold F2R; cbn; ring). rewrite E in C.
  assert (B : Rabs (IZR z) <= bpow radix2 53).
  { rewrite <- abs_IZR. change (bpow radix2 53) with (IZR (2 ^ 53)). apply IZR_le, H. }
  rewrite (no_overflow _ 53) in C by (lia || exact B). destruct C as (C1 & C2 & _). split; [exact C2|].
  change (val (fint z)) with (B2R (binary_normalize 53 1024 prec53 emax1024 mode_NE z 0 false)). rewrite C1.
  apply nearest_id. destruct (Z.eq_dec (Z.abs z) (2 ^ 53)) as [Q|Q].
  - assert (z = 2 ^ 53 \/ z = - 2 ^ 53)%Z as [->| ->] by lia; [exact (fmt_bpow 53 ltac:(lia))|]. rewrite opp_IZR. apply generic_format_opp. exact (fmt_bpow 53 ltac:(lia)).
  - apply generic_format_FLT. exists (Float radix2 z 0); [symmetry; exact E| cbn; lia| cbn; lia].
Qed.
Lemma fone_ok : finite fone /\ val fone = 1. Proof. apply fint_ok. lia. Qed.

Lemma moderate_within x : moderate x <-> within 1000 x.
Proof. unfold moderate, within. replace (bpow radix2 1000) with (2 ^ 1000); [tauto|]. rewrite bpow_powerRZ. change (IZR radix2) with 2. rewrite pow_powerRZ. reflexivity. Qed.

(** *** The weight *)
Lemma rel3 d1 d2 d3 : Rabs d1 <= u -> Rabs d2 <= u -> Rabs d3 <= u -> Rabs ((1 + d1) * (1 + d3) / (1 + d2) - 1) <= 4 * u.
Proof.
  intros A B C. apply Rabs_le_inv in A, B, C. pose proof u_pos. assert (U : u <= / 1000) by (rewrite u_val; lra).
  assert (P : 0 < 1 + d2) by lra.
  replace ((1 + d1) * (1 + d3) / (1 + d2) - 1) with ((d1 + d3 + d1 * d3 - d2) / (1 + d2)) by (field; lra).
  assert (Q : Rabs (d1 * d3) <= u * / 1000).
  { rewrite Rabs_mult. apply Rmult_le_compat; try apply Rabs_pos; apply Rabs_le; lra. }
  apply Rabs_le_inv in Q. apply Rabs_le. split; apply Rmult_le_reg_r with (1 + d2); try exact P; unfold Rdiv; rewrite ?Rmult_assoc, ?Rinv_l, ?Rmult_1_r by lra; nra.
Qed.

Lemma weight_ok a b t : within 1000 a -> within 1000 b -> within 1000 t -> val a <= val t < val b ->
  exists s, weight_f a b t = Ok s /\ finite s /\ 0 <= val s <= 1 /\
    Rabs (val s - (val t - val a) / (val b - val a)) <= 4 * u * ((val t - val a) / (val b - val a)) + eta /\ (val t = val a -> val s = 0) /\
    val s = nearest (nearest (val t - val a) / nearest (val b - val a)).
Proof.
  intros A B T [H1 H2]. destruct (fsub_ok t a 1000 ltac:(lia) T A) as [[FN _] EN]. destruct (fsub_ok b a 1000 ltac:(lia) B A) as [[FD _] ED].
  assert (DP : 0 < val (fsub b a)) by (rewrite ED; apply nearest_diff_pos; [apply fmt_val| apply fmt_val| lra]).
  assert (NP : 0 <= val (fsub t a)) by (rewrite EN; apply nearest_ge0; lra).
  assert (ND : val (fsub t a) <= val (fsub b a)) by (rewrite EN, ED; apply nearest_le; lra).
  assert (Q : 0 <= val (fsub t a) / val (fsub b a) <= 1).
  { split; [apply Rmult_le_pos; [exact NP| left; apply Rinv_0_lt_compat; exact DP]|]. apply Rmult_le_reg_r with (val (fsub b a)); [exact DP|]. unfold Rdiv. rewrite Rmult_assoc, Rinv_l by lra. lra. }
  destruct (fdiv_ok (fsub t a) (fsub b a) 0 ltac:(lia) FN FD ltac:(lra)) as (s & ES & [FS _] & VS).
  { cbn. rewrite Rabs_pos_eq by lra. lra. }
  exists s. split; [exact ES|]. split; [exact FS|]. rewrite VS. split; [|split; [|split]].
  - split; [apply nearest_ge0; lra| apply nearest_le_fmt; [exact (fmt_bpow 0 ltac:(lia))| lra]].
  - destruct (nearest_diff (val t) (val a) (fmt_val _) (fmt_val _)) as (d1 & D1 & E1). destruct (nearest_diff (val b) (val a) (fmt_val _) (fmt_val _)) as (d2 & D2 & E2).
    destruct (nearest_error (val (fsub t a) / val (fsub b a))) as (d3 & e3 & D3 & E3 & ->). rewrite EN, ED, E1, E2. set (w := (val t - val a) / (val b - val a)).
    assert (P2 : 0 < 1 + d2). { apply Rabs_le_inv in D2. assert (u <= / 2) by (rewrite u_val; lra). lra. }
    assert (W0 : 0 <= w). { unfold w. apply Rmult_le_pos; [lra| left; apply Rinv_0_lt_compat; lra]. }
    replace ((val t - val a) * (1 + d1) / ((val b - val a) * (1 + d2)) * (1 + d3) + e3 - w) with (w * ((1 + d1) * (1 + d3) / (1 + d2) - 1) + e3) by (unfold w; field; lra).
    refine (Rle_trans _ _ _ (Rabs_triang _ _) _). apply Rplus_le_compat; [|exact E3]. rewrite Rabs_mult, (Rabs_pos_eq w W0), Rmult_comm. apply Rmult_le_compat_r; [exact W0| apply rel3; assumption].
  - intros E. rewrite EN, E. replace (val a - val a) with 0 by ring. rewrite (nearest_id 0 fmt_0). unfold Rdiv. rewrite Rmult_0_l. apply nearest_id, fmt_0.
  - rewrite EN, ED. reflexivity.
Qed.

(** *** The mixture *)
Lemma mix_ok va vb s : within 1000 va -> within 1000 vb -> finite s -> 0 <= val s <= 2 ->
  within 1004 (mix va vb s) /\ (val s = 0 -> val (mix va vb s) = val va) /\
  Rabs (val (mix va vb s) - (val va * (1 - val s) + val vb * val s)) <= 4 * u * Rmax (Rabs (val va)) (Rabs (val vb)) * (Rabs (1 - val s) + val s) + 3 * eta.
Proof.
  intros [FA BA] [FB BB] FS [S0 S1]. destruct fone_ok as [F1 V1].
  assert (W1 : within 1 fone) by (split; [exact F1| rewrite V1, Rabs_R1; cbn; lra]).
  assert (WS : within 1 s) by (split; [exact FS| rewrite Rabs_pos_eq by lra; cbn; lra]).
  destruct (fsub_ok fone s 1 ltac:(lia) W1 WS) as [[FC _] VC]. rewrite V1 in VC.
  assert (C01 : Rabs (val (fsub fone s)) <= 2).
  { rewrite VC. exact (nearest_abs (1 - val s) 1 ltac:(lia) ltac:(cbn; apply Rabs_le; lra)). }
  assert (B2 : bpow radix2 1001 = bpow radix2 1000 * 2) by exact (bpow_plus radix2 1000 1).
  destruct (fmul_ok va (fsub fone s) 1001 ltac:(lia) FA FC) as [WP VP].
  { rewrite Rabs_mult, B2. apply Rmult_le_compat; try lra; apply Rabs_pos. }
  destruct (fmul_ok vb s 1001 ltac:(lia) FB FS) as [WQ VQ].
  { rewrite Rabs_mult, (Rabs_pos_eq (val s)), B2 by lra. apply Rmult_le_compat; try lra; apply Rabs_pos. }
  destruct (fadd_ok _ _ 1001 ltac:(lia) WP WQ) as [[FR BR] VR]. change (fadd (fmul va (fsub fone s)) (fmul vb s)) with (mix va vb s) in *.
  split; [split; [exact FR| refine (Rle_trans _ _ _ BR _); apply bpow_le; lia]|]. rewrite VR, VP, VQ. split.
  - intros Z. rewrite VC, Z. replace (1 - 0) with 1 by ring. rewrite (nearest_id 1 (fmt_bpow 0 ltac:(lia))). rewrite Rmult_1_r, Rmult_0_r, (nearest_id 0 fmt_0), Rplus_0_r, !nearest_id; try reflexivity; try apply fmt_val.
    rewrite nearest_id; apply fmt_val.
  - destruct (nearest_diff 1 (val s) (fmt_bpow 0 ltac:(lia)) (fmt_val _)) as (d4 & D4 & E4). rewrite VC, E4.
    destruct (nearest_sum (nearest (val va * ((1 - val s) * (1 + d4)))) (nearest (val vb * val s))) as (d7 & D7 & ->); try (apply generic_format_round; [apply FLT_exp_valid; reflexivity| apply valid_rnd_N]).
    destruct (nearest_error (val va * ((1 - val s) * (1 + d4)))) as (d5 & e5 & D5 & E5 & ->). destruct (nearest_error (val vb * val s)) as (d6 & e6 & D6 & E6 & ->).
    set (M := Rmax (Rabs (val va)) (Rabs (val vb))). assert (MA : Rabs (val va) <= M) by apply Rmax_l. assert (MB : Rabs (val vb) <= M) by apply Rmax_r.
    assert (U : 0 < u <= / 1000) by (rewrite u_val; lra). pose proof eta_pos as EP.
    replace ((val va * ((1 - val s) * (1 + d4)) * (1 + d5) + e5 + (val vb * val s * (1 + d6) + e6)) * (1 + d7) - (val va * (1 - val s) + val vb * val s))
      with (val va * (1 - val s) * ((1 + d4) * (1 + d5) * (1 + d7) - 1) + val vb * val s * ((1 + d6) * (1 + d7) - 1) + (e5 + e6) * (1 + d7)) by ring.
    assert (X : Rabs ((1 + d4) * (1 + d5) * (1 + d7) - 1) <= 4 * u).
    { apply Rabs_le_inv in D4, D5, D7. replace ((1 + d4) * (1 + d5) * (1 + d7) - 1) with (d4 + d5 + d7 + (d4 * d5 + d7 * (d4 + d5 + d4 * d5))) by ring.
      assert (Rabs (d4 * d5) <= u * / 1000) by (rewrite Rabs_mult; apply Rmult_le_compat; try apply Rabs_pos; apply Rabs_le; lra).
      assert (Z : Rabs (d4 * d5) <= / 1000) by lra. apply Rabs_le_inv in Z.
      assert (Rabs (d7 * (d4 + d5 + d4 * d5)) <= u * (3 / 1000)) by (rewrite Rabs_mult; apply Rmult_le_compat; try apply Rabs_pos; apply Rabs_le; lra).
      apply Rabs_le. apply Rabs_le_inv in H, H0. lra. }
    assert (Y : Rabs ((1 + d6) * (1 + d7) - 1) <= 4 * u).
    { apply Rabs_le_inv in D6, D7. replace ((1 + d6) * (1 + d7) - 1) with (d6 + d7 + d6 * d7) by ring.
      assert (Rabs (d6 * d7) <= u * / 1000) by (rewrite Rabs_mult; apply Rmult_le_compat; try apply Rabs_pos; apply Rabs_le; lra). apply Rabs_le_inv in H. apply Rabs_le. lra. }
    assert (Z : Rabs ((e5 + e6) * (1 + d7)) <= 3 * eta).
    { rewrite Rabs_mult. replace (3 * eta) with ((2 * eta) * (3 / 2)) by field. apply Rabs_le_inv in E5, E6, D7. apply Rmult_le_compat; try apply Rabs_pos; apply Rabs_le; lra. }
    assert (PA : Rabs (val va * (1 - val s) * ((1 + d4) * (1 + d5) * (1 + d7) - 1)) <= M * Rabs (1 - val s) * (4 * u)).
    { rewrite 2!Rabs_mult. apply Rmult_le_compat; try apply Rabs_pos; [apply Rmult_le_pos; apply Rabs_pos| | exact X]. apply Rmult_le_compat_r; [apply Rabs_pos| exact MA]. }
    assert (PB : Rabs (val vb * val s * ((1 + d6) * (1 + d7) - 1)) <= M * val s * (4 * u)).
    { rewrite 2!Rabs_mult, (Rabs_pos_eq (val s)) by lra. apply Rmult_le_compat; try apply Rabs_pos; [apply Rmult_le_pos; [apply Rabs_pos| lra]| | exact Y]. apply Rmult_le_compat_r; lra. }
    refine (Rle_trans _ _ _ (Rabs_triang _ _) _). apply Rplus_le_compat; [|exact Z]. refine (Rle_trans _ _ _ (Rabs_triang _ _) _). nra.
Qed.

Lemma interp_error va vb s w d : 0 <= w <= 1 -> Rabs (s - w) <= d ->
  Rabs (va * (1 - s) + vb * s - (va + (vb - va) * w)) <= 2 * d * Rmax (Rabs va) (Rabs vb).
Proof.
  intros W H. set (M := Rmax (Rabs va) (Rabs vb)). assert (MA : Rabs va <= M) by apply Rmax_l. assert (MB : Rabs vb <= M) by apply Rmax_r.
  replace (va * (1 - s) + vb * s - (va + (vb - va) * w)) with ((vb - va) * (s - w)) by ring. rewrite Rabs_mult.
  replace (2 * d * M) with (2 * M * d) by ring. apply Rmult_le_compat; try apply Rabs_pos; [|exact H].
  apply Rabs_le_inv in MA, MB. apply Rabs_le. lra.
Qed.
Lemma eta_u : eta <= u / 2.
Proof. unfold u. replace (bpow radix2 (-53) / 2) with (bpow radix2 (-54)) by (cbn; field). apply bpow_le. lia. Qed.

(** *** Sequences *)
Lemma steps_two a b : finite a -> finite b -> negb (fle (fsub b a) fzero) = true <-> val a < val b.
Proof.
  intros FA FB. pose proof (Bminus_correct 53 1024 prec53 emax1024 mode_NE b a FB FA) as C. fold (fsub b a) in C.
  destruct (Rlt_bool _ _) eqn:L in C.
  - destruct C as (C1 & C2 & _). rewrite negb_true_iff, fle_no by (exact C2 || reflexivity). change (val fzero) with 0. change (val (fsub b a)) with (B2R (fsub b a)). rewrite C1.
    fold (nearest (B2R b - B2R a)). fold (val b) (val a). split; intros H; [|apply nearest_diff_pos; try apply fmt_val; exact H].
    apply Rnot_le_lt. intros G. assert (K : nearest (val b - val a) <= 0) by (apply nearest_le_fmt; [apply fmt_0| lra]). exact (Rlt_irrefl 0 (Rlt_le_trans _ _ _ H K)).
  - destruct C as (C1 & C2). assert (NZ : val a <> val b).
    { intros E. change (B2R b) with (val b) in L. change (B2R a) with (val a) in L. rewrite E in L. replace (val b - val b) with 0 in L by ring. rewrite (no_overflow 0 0) in L; [discriminate| lia| rewrite Rabs_R0; cbn; lra]. }
    destruct (Bsign b) eqn:S.
    + assert (val b <= 0). { clear - S. destruct b as [[]|[]| |[] m e w]; cbn in *; try discriminate; try (right; reflexivity). left. apply F2R_lt_0. reflexivity. }
      assert (0 <= val a). { clear - C2. destruct a as [[]|[]| |[] m e w]; cbn in *; try discriminate; try (right; reflexivity). left. apply F2R_gt_0. reflexivity. }
      split; [|lra]. assert (I : fsub b a = B754_infinity true) by (destruct (fsub b a); cbn in C1; congruence). rewrite I. discriminate.
    + assert (0 <= val b). { clear - S. destruct b as [[]|[]| |[] m e w]; cbn in *; try discriminate; try (right; reflexivity). left. apply F2R_gt_0. reflexivity. }
      assert (val a <= 0). { clear - C2. destruct a as [[]|[]| |[] m e w]; cbn in *; try discriminate; try (right; reflexivity). left. apply F2R_lt_0. reflexivity. }
      assert (I : fsub b a = B754_infinity false) by (destruct (fsub b a); cbn in C1; congruence). rewrite I. split; [lra| reflexivity].
Qed.

Lemma steps_increasing ts : Forall finite ts -> steps_f ts = true <-> increasing ts.
Proof.
  induction ts as [|a [|b r] IH]; intros F; [split; [constructor| reflexivity]| split; [repeat constructor| reflexivity]|].
  inversion F as [|? ? FA F']; subst. inversion F' as [|? ? FB F'']; subst. change (steps_f (a :: b :: r)) with (negb (fle (fsub b a) fzero) && steps_f (b :: r)).
  rewrite andb_true_iff, (IH F'), steps_two by assumption. unfold increasing. split.
  - intros [H1 H2]. cbn [map] in H2 |- *. inversion H2 as [|? ? S1 S2]; subst. constructor; [exact H2|]. constructor; [exact H1|]. eapply Forall_impl; [|exact S2]. cbn. intros x X. lra.
  - intros H. cbn [map] in H. inversion H as [|? ? S1 S2]; subst. inversion S2; subst. split; assumption.
Qed.

Lemma bisect_ok ts t : Forall finite ts -> finite t -> increasing ts -> forall j x, nth_error ts j = Some x -> (j < bisect_f ts t)%nat <-> val x <= val t.
Proof.
  induction ts as [|a r IH]; intros F FT I j x H; [destruct j; discriminate|]. inversion F as [|? ? FA FR]; subst. unfold increasing in I. cbn [map] in I. inversion I as [|? ? I1 I2]; subst. cbn [bisect_f].
  destruct (fle a t) eqn:L.
  - apply fle_ok in L; try assumption. destruct j as [|j]; cbn in H; [injection H as <-; split; [intros _; exact L| lia]|]. rewrite <- (IH FR FT I1 j x H). lia.
  - apply fle_no in L; try assumption. split; [lia|]. intros H'. destruct j as [|j]; cbn in H; [injection H as <-; lra|].
    rewrite Forall_forall in I2. specialize (I2 (val x) (in_map val _ _ (nth_error_In _ _ H))). lra.
Qed.

Lemma increasing_nth ts i j x y : increasing ts -> (i < j)%nat -> nth_error ts i = Some x -> nth_error ts j = Some y -> val x < val y.
Proof.
  unfold increasing. revert i j. induction ts as [|a r IH]; intros i j I L X Y; [destruct i; discriminate|]. cbn [map] in I. inversion I as [|? ? I1 I2]; subst. destruct j as [|j]; [lia|]. cbn in Y.
  destruct i as [|i]; cbn in X; [|exact (IH i j I1 ltac:(lia) X Y)]. injection X as <-. rewrite Forall_forall in I2. exact (I2 _ (in_map val _ _ (nth_error_In _ _ Y))).
Qed.

Lemma last_nth (ts : list fl) t0 d : last (t0 :: ts) d = match nth_error (t0 :: ts) (length ts) with Some x => x | None => d end.
Proof. revert t0 d. induction ts as [|a r IH]; intros t0 d; [reflexivity|]. change (last (t0 :: a :: r) d) with (last (a :: r) d). rewrite IH. reflexivity. Qed.
Lemma rev_last (vs : list fl) v : item_pred (v :: vs) 0 = match nth_error (v :: vs) (length vs) with Some x => Ok x | None => Err PyIndexError end.
Proof.
  unfold item_pred. destruct (exists_last (l := v :: vs) ltac:(discriminate)) as (l & x & E). rewrite E, rev_app_distr. cbn [rev app].
  assert (L : length vs = length l). { apply (f_equal (@length fl)) in E. rewrite app_length in E. cbn in E. lia. }
  rewrite L, nth_error_app2, Nat.sub_diag by lia. reflexivity.
Qed.

(** Every case of at_interp on a sequence of samples. *)
Lemma interp_first ts vs t t0 v0 r w : ts = t0 :: r -> vs = v0 :: w -> finite t0 -> finite t -> val t <= val t0 -> at_interp_f ts vs t = Ok v0.
Proof. intros -> -> F0 FT H. unfold at_interp_f. rewrite (proj2 (fle_ok t t0 FT F0) H). reflexivity. Qed.
Lemma interp_last ts vs t i tl vl : length ts = length vs -> Forall finite ts -> increasing ts -> finite t -> S i = length ts -> nth_error ts i = Some tl -> nth_error vs i = Some vl -> val tl <= val t -> at_interp_f ts vs t = Ok vl.
Proof.
  intros L F I FT E TL VL H. destruct ts as [|t0 r]; [destruct i; discriminate|]. destruct vs as [|v0 w]; [discriminate|]. cbn in E, L. injection E as E. injection L as L.
  inversion F as [|? ? F0 FR]; subst. unfold at_interp_f. destruct (fle t t0) eqn:C.
  - apply fle_ok in C; try assumption. destruct r as [|t1 r]; [cbn in *; destruct w; [congruence|discriminate]|]. assert (val t0 < val tl) by (apply (increasing_nth (t0 :: t1 :: r) 0 (length (t1 :: r)) t0 tl I); [cbn; lia| reflexivity| exact TL]). lra.
  - rewrite last_nth, TL. assert (FL : finite tl). { rewrite Forall_forall in F. apply F. exact (nth_error_In _ _ TL). }
    rewrite (proj2 (fle_ok tl t FL FT) H), rev_last, <- L, VL. reflexivity.
Qed.
Lemma interp_inside ts vs t i ta tb va vb : Forall finite ts -> increasing ts -> finite t -> nth_error ts i = Some ta -> nth_error ts (S i) = Some tb -> nth_error vs i = Some va -> nth_error vs (S i) = Some vb ->
  val ta <= val t < val tb -> (i = 0%nat -> val ta < val t) -> at_interp_f ts vs t = match weight_f ta tb t with Ok s => Ok (mix va vb s) | Err e => Err e end.
Proof.
  intros F I FT TA TB VA VB [H1 H2] H0. assert (FA : forall j x, nth_error ts j = Some x -> finite x) by (intros j x E; rewrite Forall_forall in F; exact (F x (nth_error_In _ _ E))).
  destruct ts as [|t0 r]; [destruct i; discriminate|]. unfold at_interp_f.
  assert (C0 : val t0 < val t). { destruct i as [|i]; [cbn in TA; injection TA as ->; auto|]. pose proof (increasing_nth _ 0 (S i) t0 ta I ltac:(lia) eq_refl TA). lra. }
  rewrite (proj2 (fle_no t t0 FT (FA 0%nat t0 eq_refl)) C0). rewrite last_nth.
  destruct (nth_error (t0 :: r) (length r)) as [tl|] eqn:TL; [|exfalso; apply nth_error_None in TL; cbn in TL; lia].
  assert (C1 : val t < val tl). { assert (S i <= length r)%nat by (assert (S i < length (t0 :: r))%nat by (apply nth_error_Some; congruence); cbn in *; lia). destruct (Nat.eq_dec (S i) (length r)) as [Q|Q]; [rewrite Q in TB; congruence|]. pose proof (increasing_nth _ (S i) (length r) tb tl I ltac:(lia) TB TL). lra. }
  rewrite (proj2 (fle_no tl t (FA _ _ TL) FT) C1).
  assert (B : bisect_f (t0 :: r) t = S i). { pose proof (proj2 (bisect_ok _ t F FT I _ _ TA) H1). assert (~ (S i < bisect_f (t0 :: r) t)%nat) by (intros Q; apply (bisect_ok _ t F FT I _ _ TB) in Q; lra). lia. }
  rewrite B. unfold item_pred, item. rewrite TA, TB. destruct (weight_f ta tb t); [|reflexivity]. rewrite VA, VB. reflexivity.
Qed.

(** *** Decimals as floats *)
Lemma fratio_ok n d k : (-1074 <= k < 1024)%Z -> Rabs (IZR n / IZR (Zpos d)) <= bpow radix2 k -> finite (fratio n d) /\ val (fratio n d) = nearest (IZR n / IZR (Zpos d)).
Proof.
  intros K B. assert (FP : forall z, F2R (Float radix2 z 0) = IZR z) by (intros z; unfold F2R; cbn; ring).
  destruct n as [|p|p].
  - split; [reflexivity|]. unfold Rdiv. rewrite Rmult_0_l, nearest_id by apply fmt_0. reflexivity.
  - unfold fratio. pose proof (proj2 (Bdiv_correct_aux 53 1024 prec53 emax1024 mode_NE false p 0 false d 0)) as C. cbv zeta in C. cbn [cond_Zopp] in C. rewrite !FP in C. rewrite (no_overflow _ k K B) in C. destruct C as (C1 & C2 & _).
    split; [unfold finite; rewrite is_finite_SF2B; exact C2| unfold val; rewrite B2R_SF2B; exact C1].
  - unfold fratio. pose proof (proj2 (Bdiv_correct_aux 53 1024 prec53 emax1024 mode_NE true p 0 false d 0)) as C. cbv zeta in C. cbn [cond_Zopp Z.opp] in C. rewrite !FP in C. rewrite (no_overflow _ k K B) in C. destruct C as (C1 & C2 & _).
    split; [unfold finite; rewrite is_finite_SF2B; exact C2| unfold val; rewrite B2R_SF2B; exact C1].
Qed.
Lemma pow10_Z e : (0 <= e)%Z -> IZR (10 ^ e) = powerRZ 10 e.
Proof. intros H. rewrite <- (Z2Nat.id e H). rewrite <- pow_IZR. rewrite <- pow_powerRZ. reflexivity. Qed.
Lemma fdec_ok c e k : (-1074 <= k < 1024)%Z -> Rabs (dval c e) <= bpow radix2 k -> finite (fdec (DecModel.DNum c e)) /\ val (fdec (DecModel.DNum c e)) = nearest (dval c e).
Proof.
  intros K B. unfold fdec, dval in *. destruct (Z.leb_spec 0 e) as [P|P].
  - replace (IZR c * powerRZ 10 e) with (IZR (c * 10 ^ e) / 1) in * by (rewrite mult_IZR, pow10_Z by exact P; field). exact (fratio_ok (c * 10 ^ e) 1 k K B).
  - replace (IZR c * powerRZ 10 e) with (IZR c / IZR (Zpos (Z.to_pos (10 ^ (- e))))) in *; [exact (fratio_ok _ _ k K B)|].
    rewrite Z2Pos.id by (apply Z.pow_pos_nonneg; lia). rewrite pow10_Z by lia. unfold Rdiv. rewrite <- powerRZ_neg', Z.opp_involutive. reflexivity.
Qed.
