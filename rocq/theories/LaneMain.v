(* Generated from tools/Lane.src by tools/gen_props.py. *)
(** Properties of lanes. *)
From Coq Require Import Reals Lra Psatz List Bool ZArith Lia Arith.
From Verif Require Import Base R2 GeoModel GeoSpec GeoProofs GeoMain AssocLemmas LaneModel LaneSpec LaneProofs.
Import ListNotations.
Open Scope R_scope.

Lemma proper_lengths cps : proper cps -> forall i l, nth_error (get_lane_lengths cps) i = Some l -> 0 < l.
Proof.
  intros [NE P] i l H. assert (L : (i < length (get_lane_lengths cps))%nat) by (apply nth_error_Some; rewrite H; discriminate). rewrite lengths_length in L.
  destruct (nth_error cps i) as [c0|] eqn:E0; [|apply nth_error_None in E0; lia]. destruct (nth_error cps (S i)) as [c1|] eqn:E1; [|apply nth_error_None in E1; lia].
  rewrite (lengths_nth cps i c0 c1 E0 E1) in H. injection H as <-.
  destruct (C75_pose_distance_partial_pf (as_SE2 (cp_q c0)) (as_SE2 (cp_q c1)) (is_se2_as _) (is_se2_as _)) as (_ & _ & _ & Z).
  destruct (Rle_lt_or_eq_dec 0 (get_distance_SE2 (as_SE2 (cp_q c0)) (as_SE2 (cp_q c1)))) as [G|G]; [apply vnorm_nonneg|exact G|].
  symmetry in G. apply Z in G. exfalso. apply (P i c0 c1 (conj E0 E1)). destruct (cp_q c0) as [[x y] t], (cp_q c1) as [[x' y'] t']. exact G.
Qed.

(** Examples: a lane that bends. *)
Definition ex_lane : lanelet := [mkCP (mkSE2T (0, 0) 0) 2; mkCP (mkSE2T (4, 0) 0) 3; mkCP (mkSE2T (8, 3) 1) 3].

Lemma ex_lane_proper : proper ex_lane.
Proof.
  split; [discriminate|]. intros [|[|[|i]]] c0 c1 [H0 H1]; cbn in H0, H1; try discriminate; injection H0 as <-; injection H1 as <-; cbn; intro E; injection E; lra.
Qed.

(** Both conversions are defined for every parameter. *)
Lemma C47_defined_pf : forall cps x, cps <> [] -> (exists b, beta_from_along_lane cps x = Ok b) /\ (exists a, along_lane_from_beta cps x = Ok a).
Proof.
  intros cps x NE. split.
  - destruct (Rlt_dec x 0) as [L|L]; [eexists; apply beta_neg; exact L|]. destruct (Rlt_dec (rsum (get_lane_lengths cps)) x) as [L2|L2]; [eexists; apply beta_after; assumption|].
    destruct (isclose x (rsum (get_lane_lengths cps))) eqn:C; [eexists; apply beta_close; [exact NE|lra|exact C]|].
    destruct (beta_in cps x) as (i & l & _ & _ & E); [lra|exact C|eexists; exact E].
  - destruct (beta_cases cps x) as [H|[H|(i & a & l & H1 & H2 & ->)]]; eexists; [apply along_neg; exact H|apply along_after; assumption|apply along_in; eassumption].
Qed.

(** Position to parameter and back: exact, except that a position within the
    tolerance of the end of the lane becomes the end of the lane. *)
Lemma C47_position_parameter_position_pf : forall cps x b, cps <> [] -> beta_from_along_lane cps x = Ok b ->
  exists y, along_lane_from_beta cps b = Ok y /\ (y = x \/ (y = get_lane_length cps /\ within_tolerance x (get_lane_length cps))).
Proof.
  intros cps x b NE H. unfold get_lane_length.
  destruct (Rlt_dec x 0) as [L|L]; [rewrite (beta_neg cps x L) in H; injection H as <-; exists x; split; [apply along_neg; exact L|left; reflexivity]|].
  destruct (Rlt_dec (rsum (get_lane_lengths cps)) x) as [L2|L2].
  { rewrite (beta_after cps NE x L2) in H. injection H as <-. eexists. split; [apply along_after; [exact NE|lra]|left; ring]. }
  destruct (isclose x (rsum (get_lane_lengths cps))) eqn:C.
  { rewrite (beta_close cps NE x) in H by (first [exact C | lra]). injection H as <-. eexists. split; [apply along_after; [exact NE|lra]|]. right. split; [ring|]. apply leb_iff. exact C. }
  destruct (beta_in cps x) as (i & l & E1 & E2 & E3); [lra|exact C|]. rewrite E3 in H. injection H as <-.
  assert (0 < l) by lra. assert (0 <= (x - psum (get_lane_lengths cps) i) / l < 1).
  { split; [apply Rmult_le_pos; [lra|left; apply Rinv_0_lt_compat; lra]|]. apply Rmult_lt_reg_r with l; [lra|]. replace ((x - psum (get_lane_lengths cps) i) / l * l) with (x - psum (get_lane_lengths cps) i) by (field; lra). lra. }
  eexists. split; [apply along_in; eassumption|]. left. field. lra.
Qed.

(** Parameter to position and back, on a lane without repeated control points. *)
Lemma C47_parameter_position_parameter_pf : forall cps b y, proper cps -> along_lane_from_beta cps b = Ok y ->
  exists b', beta_from_along_lane cps y = Ok b' /\ (b' = b \/ (b' = last_beta cps /\ b <= last_beta cps /\ within_tolerance y (get_lane_length cps))).
Proof.
  intros cps b y P H. pose proof (proj1 P) as NE. unfold get_lane_length. pose proof (S_nonneg cps) as SN. pose proof (last_n cps NE) as LN.
  destruct (beta_cases cps b) as [Hb|[Hb|(i & a & l & E1 & E2 & ->)]].
  - rewrite (along_neg cps b Hb) in H. injection H as <-. exists b. split; [apply beta_neg; exact Hb|left; reflexivity].
  - rewrite (along_after cps NE b Hb) in H. injection H as <-. destruct (Rle_lt_or_eq_dec _ _ Hb) as [G|G].
    + eexists. split; [apply beta_after; [exact NE|lra]|left; ring].
    + eexists. split; [apply beta_close; [exact NE|lra|rewrite <- G; replace (rsum (get_lane_lengths cps) + (INR (length (get_lane_lengths cps)) - INR (length (get_lane_lengths cps)))) with (rsum (get_lane_lengths cps)) by ring; apply isclose_refl]|left; exact G].
  - rewrite (along_in cps NE i a l E1 E2) in H. injection H as <-. pose proof (proper_lengths cps P i l E1) as Pl.
    assert (Hi : (i < length (get_lane_lengths cps))%nat) by (apply nth_error_Some; rewrite E1; discriminate).
    pose proof (psum_bounds (get_lane_lengths cps) i (lengths_nonneg cps) ltac:(lia)) as B1. pose proof (psum_bounds (get_lane_lengths cps) (S i) (lengths_nonneg cps) ltac:(lia)) as B2.
    rewrite (psum_S _ i l E1) in B2.
    assert (La : 0 <= l * a < l) by nra.
    destruct (isclose (psum (get_lane_lengths cps) i + l * a) (rsum (get_lane_lengths cps))) eqn:C.
    + exists (last_beta cps). rewrite LN. split; [apply beta_close; [exact NE|lra|exact C]|]. right. split; [reflexivity|]. split; [|apply leb_iff; exact C].
      assert (INR i + 1 <= INR (length (get_lane_lengths cps))) by (rewrite <- S_INR; apply le_INR; lia). lra.
    + destruct (beta_in cps (psum (get_lane_lengths cps) i + l * a)) as (j & l' & F1 & F2 & F3); [lra|exact C|].
      assert (j = i) as ->.
      { assert (~ (j < i)%nat). { intro K. pose proof (psum_mono (get_lane_lengths cps) (S j) i (lengths_nonneg cps) ltac:(lia)) as M. rewrite (psum_S _ j l' F1) in M. lra. }
        assert (~ (i < j)%nat). { intro K. pose proof (psum_mono (get_lane_lengths cps) (S i) j (lengths_nonneg cps) ltac:(lia)) as M. rewrite (psum_S _ i l E1) in M. lra. }
        lia. }
      assert (l' = l) as -> by congruence. eexists. split; [exact F3|]. left. field. lra.
Qed.

(** The position grows with the parameter, on every lane; strictly, if the lane has
    no repeated control points. *)
Lemma C47_monotone_position_pf : forall cps b1 b2 y1 y2, cps <> [] -> along_lane_from_beta cps b1 = Ok y1 -> along_lane_from_beta cps b2 = Ok y2 ->
  (b1 <= b2 -> y1 <= y2) /\ (proper cps -> b1 < b2 -> y1 < y2).
Proof.
  intros cps b1 b2 y1 y2 NE H1 H2. pose proof (S_nonneg cps) as SN. set (ls := get_lane_lengths cps) in *. set (n := length ls).
  assert (R : forall b y, along_lane_from_beta cps b = Ok y -> 0 <= b <= INR n -> exists i a l, (nth_error ls i = Some l \/ (i = n /\ l = 0 /\ a = 0)) /\ 0 <= a < 1 /\ b = INR i + a /\ y = psum ls i + l * a).
  { intros b y H B. destruct (beta_cases cps b) as [Hb|[Hb|(i & a & l & E1 & E2 & ->)]]; [lra| |].
    - rewrite (along_after cps NE b Hb) in H. fold ls in H, Hb. fold n in H, Hb. injection H as <-. exists n, 0, 0. split; [right; auto|]. split; [lra|]. split; [lra|]. unfold n. rewrite psum_all. fold n. lra.
    - rewrite (along_in cps NE i a l E1 E2) in H. injection H as <-. exists i, a, l. split; [left; exact E1|]. split; [exact E2|]. split; reflexivity. }
  assert (Q : forall b y, along_lane_from_beta cps b = Ok y -> (b < 0 -> y = b) /\ (INR n <= b -> y = rsum ls + (b - INR n)) /\ (0 <= b <= INR n -> 0 <= y <= rsum ls)).
  { intros b y H. split; [|split].
    - intro L. rewrite (along_neg cps b L) in H. injection H as <-. reflexivity.
    - intro L. rewrite (along_after cps NE b L) in H. injection H as <-. reflexivity.
    - intro L. destruct (R b y H L) as (i & a & l & [E|(-> & -> & ->)] & Ha & _ & ->).
      + assert (Hi : (i < length ls)%nat) by (apply nth_error_Some; rewrite E; discriminate).
        pose proof (psum_bounds ls i (lengths_nonneg cps) ltac:(lia)) as B1. pose proof (psum_bounds ls (S i) (lengths_nonneg cps) ltac:(lia)) as B2. rewrite (psum_S ls i l E) in B2.
        assert (0 <= l) by (pose proof (psum_mono ls i (S i) (lengths_nonneg cps) ltac:(lia)) as M; rewrite (psum_S ls i l E) in M; lra). nra.
      + unfold n. rewrite psum_all. lra. }
  assert (G : b1 < b2 -> y1 <= y2 /\ (proper cps -> y1 < y2)).
  { intro B. destruct (Q _ _ H1) as (Q1 & Q2 & Q3). destruct (Q _ _ H2) as (Q4 & Q5 & Q6).
    destruct (Rlt_dec b1 0) as [L1|L1].
    { specialize (Q1 L1). destruct (Rlt_dec b2 0) as [L2|L2]; [specialize (Q4 L2); lra|]. destruct (Rle_dec b2 (INR n)) as [L3|L3]; [specialize (Q6 ltac:(lra)); lra|specialize (Q5 ltac:(lra)); lra]. }
    destruct (Rle_dec (INR n) b1) as [L2|L2]; [specialize (Q2 L2); specialize (Q5 ltac:(lra)); lra|].
    destruct (Rlt_dec (INR n) b2) as [L3|L3]; [specialize (Q3 ltac:(lra)); specialize (Q5 ltac:(lra)); lra|].
    destruct (R b1 y1 H1 ltac:(lra)) as (i & a & l & [E|(-> & -> & ->)] & Ha & Eb & ->); [|lra].
    destruct (R b2 y2 H2 ltac:(lra)) as (j & a' & l' & Ej & Ha' & Eb' & ->).
    assert (Hl : 0 <= l) by (pose proof (psum_mono ls i (S i) (lengths_nonneg cps) ltac:(lia)) as M; rewrite (psum_S ls i l E) in M; lra).
    assert (Hl' : 0 <= l') by (destruct Ej as [Ej|(_ & -> & _)]; [pose proof (psum_mono ls j (S j) (lengths_nonneg cps) ltac:(lia)) as M; rewrite (psum_S ls j l' Ej) in M; lra|lra]).
    assert (Hij : (i <= j)%nat). { assert (INR i < INR (j + 1)) as X by (rewrite plus_INR; cbn; lra). apply INR_lt in X. lia. }
    destruct (Nat.eq_dec i j) as [<-|Nij].
    - destruct Ej as [Ej|(Ej & _ & _)]; [|exfalso; assert (i < length ls)%nat by (apply nth_error_Some; rewrite E; discriminate); unfold n in Ej; lia].
      assert (l' = l) as -> by congruence. split; [nra|]. intro P. pose proof (proper_lengths cps P i l E). nra.
    - pose proof (psum_mono ls (S i) j (lengths_nonneg cps) ltac:(lia)) as M. rewrite (psum_S ls i l E) in M. split; [nra|]. intro P. pose proof (proper_lengths cps P i l E). nra. }
  split; [|intros P B; apply G; assumption]. intro B. destruct (Rle_lt_or_eq_dec _ _ B) as [L|E]; [apply G; exact L|]. subst b2. rewrite H1 in H2. injection H2 as ->. lra.
Qed.

(** The parameter grows with the position, on every lane. *)
Lemma C47_monotone_parameter_pf : forall cps x1 x2 b1 b2, cps <> [] -> beta_from_along_lane cps x1 = Ok b1 -> beta_from_along_lane cps x2 = Ok b2 -> x1 <= x2 -> b1 <= b2.
Proof.
  intros cps x1 x2 b1 b2 NE H1 H2 L. pose proof (S_nonneg cps) as SN. set (ls := get_lane_lengths cps) in *. set (n := length ls).
  assert (R : forall x b, beta_from_along_lane cps x = Ok b -> (x < 0 /\ b = x) \/ (rsum ls < x /\ b = INR n + (x - rsum ls)) \/ (0 <= x <= rsum ls /\ isclose x (rsum ls) = true /\ b = INR n) \/
    (0 <= x <= rsum ls /\ isclose x (rsum ls) = false /\ exists i l, nth_error ls i = Some l /\ psum ls i <= x < psum ls i + l /\ b = INR i + (x - psum ls i) / l)).
  { intros x b H. destruct (Rlt_dec x 0) as [Lx|Lx]; [left; split; [exact Lx|]; rewrite (beta_neg cps x Lx) in H; injection H as <-; reflexivity|].
    destruct (Rlt_dec (rsum ls) x) as [L2|L2]; [right; left; split; [exact L2|]; rewrite (beta_after cps NE x L2) in H; injection H as <-; reflexivity|].
    destruct (isclose x (rsum ls)) eqn:C; right; right; [left|right].
    - rewrite (beta_close cps NE x) in H by (fold ls; first [exact C | lra]). injection H as <-. split; [lra|]. auto.
    - destruct (beta_in cps x) as (i & l & A & B & D); [fold ls; lra|exact C|]. rewrite D in H. injection H as <-. split; [lra|]. split; [reflexivity|]. exists i, l. auto. }
  assert (F : forall i l x, nth_error ls i = Some l -> psum ls i <= x < psum ls i + l -> INR i <= INR i + (x - psum ls i) / l < INR i + 1 /\ INR i + 1 <= INR n).
  { intros i l x E B. split.
    - split; [assert (0 <= (x - psum ls i) / l) by (apply Rmult_le_pos; [lra|left; apply Rinv_0_lt_compat; lra]); lra|].
      assert ((x - psum ls i) / l < 1); [|lra]. apply Rmult_lt_reg_r with l; [lra|]. replace ((x - psum ls i) / l * l) with (x - psum ls i) by (field; lra). lra.
    - assert (i < length ls)%nat by (apply nth_error_Some; rewrite E; discriminate). rewrite <- S_INR. apply le_INR. unfold n. lia. }
  pose proof (pos_INR n) as Pn.
  destruct (R _ _ H1) as [(A1 & ->)|[(A1 & ->)|[(A1 & C1 & ->)|(A1 & C1 & i & l & E1 & B1 & ->)]]]; destruct (R _ _ H2) as [(A2 & ->)|[(A2 & ->)|[(A2 & C2 & ->)|(A2 & C2 & j & l' & E2 & B2 & ->)]]]; try lra.
  - pose proof (F j l' x2 E2 B2). pose proof (pos_INR j). lra.
  - exfalso. unfold isclose in C1, C2. apply leb_iff in C1. apply leb_false in C2.
    assert (A : Rabs (x1 - rsum ls) = rsum ls - x1) by (rewrite Rabs_left1 by lra; ring). assert (B : Rabs (x2 - rsum ls) = rsum ls - x2) by (rewrite Rabs_left1 by lra; ring).
    rewrite A in C1. rewrite B in C2. rewrite (Rabs_pos_eq x1), (Rabs_pos_eq (rsum ls)), (Rmax_right x1 (rsum ls)) in C1 by lra. rewrite (Rabs_pos_eq x2), (Rabs_pos_eq (rsum ls)), (Rmax_right x2 (rsum ls)) in C2 by lra. lra.
  - pose proof (F i l x1 E1 B1). lra.
  - pose proof (F i l x1 E1 B1). lra.
  - pose proof (F i l x1 E1 B1) as F1. pose proof (F j l' x2 E2 B2) as F2. destruct (Nat.lt_trichotomy i j) as [K|[<-|K]].
    + assert (INR i + 1 <= INR j) by (rewrite <- S_INR; apply le_INR; lia). lra.
    + assert (l' = l) as -> by congruence. apply Rplus_le_compat_l. unfold Rdiv. apply Rmult_le_compat_r; [left; apply Rinv_0_lt_compat; lra|lra].
    + exfalso. pose proof (psum_mono ls (S j) i (lengths_nonneg cps) ltac:(lia)) as M. rewrite (psum_S ls j l' E2) in M. lra.
Qed.

(** The first control point is at 0, the last at the length of the lane. *)
Lemma C47_end_points_pf : forall cps, cps <> [] -> along_lane_from_beta cps 0 = Ok 0 /\ along_lane_from_beta cps (last_beta cps) = Ok (get_lane_length cps) /\
  beta_from_along_lane cps (get_lane_length cps) = Ok (last_beta cps) /\ (proper cps -> ~ within_tolerance 0 (get_lane_length cps) -> beta_from_along_lane cps 0 = Ok 0).
Proof.
  intros cps NE. pose proof (S_nonneg cps) as SN. unfold get_lane_length. rewrite (last_n cps NE).
  assert (Z : along_lane_from_beta cps 0 = Ok 0).
  { destruct (beta_cases cps 0) as [H|[H|(i & a & l & E1 & E2 & E3)]]; [lra| |].
    - pose proof (pos_INR (length (get_lane_lengths cps))). assert (E : length (get_lane_lengths cps) = 0%nat) by (apply INR_eq; cbn; lra).
      rewrite (along_after cps NE 0 H), E. apply length_zero_iff_nil in E. rewrite E. unfold rsum. cbn. f_equal. ring.
    - pose proof (pos_INR i). assert (a = 0) as -> by lra. assert (E : i = 0%nat) by (apply INR_eq; cbn; lra). subst i. rewrite E3, (along_in cps NE 0 0 l E1 E2). f_equal. rewrite psum_0. cbn. ring. }
  split; [exact Z|]. split; [rewrite (along_after cps NE) by lra; f_equal; ring|]. split; [apply beta_close; [exact NE|lra|apply isclose_refl]|].
  intros P W. destruct (C47_parameter_position_parameter_pf cps 0 0 P Z) as (b' & E & [->|(_ & _ & T)]); [exact E|contradiction].
Qed.

(** One length per pair of consecutive control points, namely the length of the
    constant-curvature arc between them, which is at least their distance; the
    lane length is the sum. *)
Lemma C48_lengths_pf : forall cps, length (get_lane_lengths cps) = (length cps - 1)%nat /\
  (forall i c0 c1, consecutive cps i c0 c1 -> exists l, nth_error (get_lane_lengths cps) i = Some l /\ 0 <= l /\ vdist (t_p (cp_q c0)) (t_p (cp_q c1)) <= l /\
     forall a, moves_at (fun a => translation_from_SE2 (SE2_interpolate (as_SE2 (cp_q c0)) (as_SE2 (cp_q c1)) a)) a l) /\
  get_lane_length cps = fold_right Rplus 0 (get_lane_lengths cps).
Proof.
  intro cps. split; [apply lengths_length|]. split.
  - intros i c0 c1 [H0 H1]. eexists. split; [apply lengths_nth; eassumption|]. split; [apply vnorm_nonneg|].
    destruct (C75_pose_distance_partial_pf (as_SE2 (cp_q c0)) (as_SE2 (cp_q c1)) (is_se2_as _) (is_se2_as _)) as (_ & _ & D & _).
    split; [destruct (cp_q c0) as [[x y] t], (cp_q c1) as [[x' y'] t']; exact D|]. intro a. destruct (interp_speed (as_SE2 (cp_q c0)) (as_SE2 (cp_q c1)) a (is_se2_as _) (is_se2_as _)) as (dx & dy & D1 & D2 & D3).
    exists dx, dy. auto.
  - unfold get_lane_length. induction (get_lane_lengths cps) as [|x l IH]; [reflexivity|]. rewrite rsum_cons, IH. reflexivity.
Qed.

(** The lane is at least as long as the straight line between its ends. *)
Lemma C48_detour_pf : forall cps c0 c1, nth_error cps 0 = Some c0 -> nth_error cps (length cps - 1) = Some c1 -> vdist (t_p (cp_q c0)) (t_p (cp_q c1)) <= get_lane_length cps.
Proof.
  intro cps. unfold get_lane_length. induction cps as [|c [|d l] IH]; intros c0 c1 H0 H1; [discriminate| |].
  - cbn in H0, H1. injection H0 as ->. injection H1 as ->. replace (vdist _ _) with 0; [apply S_nonneg|]. symmetry. apply vdist_zero. reflexivity.
  - cbn in H0. injection H0 as ->. change (get_lane_lengths (c0 :: d :: l)) with (get_distance_SE2 (as_SE2 (cp_q c0)) (as_SE2 (cp_q d)) :: get_lane_lengths (d :: l)). rewrite rsum_cons. cbn [length] in H1, IH. rewrite Nat.sub_succ, Nat.sub_0_r in H1, IH. cbn [nth_error] in H1.
    specialize (IH d c1 eq_refl H1).
    destruct (C75_pose_distance_partial_pf (as_SE2 (cp_q c0)) (as_SE2 (cp_q d)) (is_se2_as _) (is_se2_as _)) as (_ & _ & D & _).
    assert (D' : vdist (t_p (cp_q c0)) (t_p (cp_q d)) <= get_distance_SE2 (as_SE2 (cp_q c0)) (as_SE2 (cp_q d))) by (destruct (cp_q c0) as [[x y] t], (cp_q d) as [[x' y'] t']; exact D).
    pose proof (vdist_triangle (t_p (cp_q c0)) (t_p (cp_q d)) (t_p (cp_q c1))). lra.
Qed.

(** As long as the lanes do not change, a cached query answers what an uncached one
    would, whatever was asked before, whatever the size of the cache. *)
Lemma C48_cache_pf : forall (K V : Type) (keq : K -> K -> bool) maxsize (f : K -> V) ks, (forall a b, keq a b = true <-> a = b) ->
  answers keq maxsize (map (fun k => (f, k)) ks) [] = map f ks.
Proof.
  intros K V keq maxsize f ks HK.
  assert (G : forall c, (forall k v, In (k, v) c -> v = f k) -> answers keq maxsize (map (fun k => (f, k)) ks) c = map f ks).
  { induction ks as [|k ks IH]; intros c Hc; [reflexivity|]. cbn [map answers]. unfold cached_call, lru_get.
    destruct (aget keq c k) as [v|] eqn:E.
    - assert (I : In (k, v) c) by (apply (aget_In keq HK); exact E).
      rewrite (Hc k v I). f_equal. apply IH. intros k' v' J. apply in_app_or in J as [J|[J|[]]]; [apply filter_In in J as [J _]; apply Hc; exact J|]. injection J as <- <-. reflexivity.
    - f_equal. apply IH. intros k' v' J. unfold lru_set in J. apply in_app_or in J as [J|J].
      + apply Hc. rewrite <- (firstn_skipn (length c + 1 - maxsize) c). apply in_or_app. right. exact J.
      + destruct (maxsize =? 0)%nat; [destruct J|]. destruct J as [J|[]]. injection J as <- <-. reflexivity. }
  apply G. intros k v [].
Qed.

(** After its control points are changed through get_control_points, a lane keeps
    reporting its old lengths. *)
Lemma C48_stale_cache_refuted_pf : exists (before_ after_ : nat -> lanelet) l1 l2,
  answers Nat.eqb 128 [(fun lane => get_lane_lengths (before_ lane), 0%nat); (fun lane => get_lane_lengths (after_ lane), 0%nat)] [] = [l1; l2] /\ l2 <> get_lane_lengths (after_ 0%nat).
Proof.
  exists (fun _ => ex_lane), (fun _ => tl ex_lane), (get_lane_lengths ex_lane), (get_lane_lengths ex_lane). split; [reflexivity|]. discriminate.
Qed.

Lemma lane_pose_inv cps x h lat lp : lane_pose cps x h lat = Ok lp -> exists b q r, beta_from_along_lane cps x = Ok b /\ center_point cps b = Ok q /\ radius cps b = Ok r /\
  lp = mkLP ((leb (- r) lat && leb lat r) && (leb 0 x && ltb x (get_lane_length cps))) (ltb r lat) (ltb lat (- r)) (leb 0 x && ltb x (get_lane_length cps)) (ltb x 0) (ltb (get_lane_length cps) x)
    lat (leb (- r) lat && leb lat r) x h (leb (Rabs h) (PI / 2)) r (- r) (Rabs (r - lat)) (Rabs (- r - lat)) (Rabs lat) (from_SE2 q).
Proof.
  unfold lane_pose. destruct (beta_from_along_lane cps x) as [b|] eqn:E1; cbn [bind]; [|discriminate]. destruct (center_point cps b) as [q|] eqn:E2; cbn [bind]; [|discriminate].
  destruct (radius cps b) as [r|] eqn:E3; cbn [bind]; [|discriminate]. intros [= <-]. exists b, q, r. auto.
Qed.

(** Laterally every position is classified exactly once, and along the lane at most
    once; what is reported is consistent with the coordinates. *)
Lemma C49_classification_pf : forall cps x h lat, cps <> [] -> (forall c, In c cps -> 0 <= cp_r c) ->
  exists lp r, lane_pose cps x h lat = Ok lp /\ 0 <= r /\ lp_lateral_left lp = r /\ lp_lateral_right lp = - r /\
    exactly_one (lp_outside_left lp) (lp_lateral_inside lp) (lp_outside_right lp) /\
    (lp_outside_left lp = true <-> r < lat) /\ (lp_outside_right lp = true <-> lat < - r) /\
    (lp_along_before lp = true <-> x < 0) /\ (lp_along_inside lp = true <-> 0 <= x < get_lane_length cps) /\ (lp_along_after lp = true <-> get_lane_length cps < x) /\
    lp_inside lp = lp_lateral_inside lp && lp_along_inside lp /\
    lp_lateral lp = lat /\ lp_along_lane lp = x /\ lp_relative_heading lp = h /\ (lp_correct_direction lp = true <-> - (PI / 2) <= h <= PI / 2) /\
    lp_distance_from_center lp = Rabs lat /\ (lp_lateral_inside lp = true -> lp_distance_from_left lp + lp_distance_from_right lp = 2 * r).
Proof.
  intros cps x h lat NE HR. destruct (C47_defined_pf cps x NE) as [(b & Eb) _]. destruct (cp_defined cps b NE) as (q & r & t & E1 & E2 & _).
  assert (Hr : 0 <= r).
  { destruct (first_last cps NE) as (c & c' & Hc & Hc'). destruct (cp_cases cps b NE) as [H|[H|(i & c0 & c1 & a & H0 & H1 & Ha & ->)]].
    - destruct (cp_neg cps c b Hc H) as (_ & X & _). rewrite X in E2. injection E2 as <-. apply HR. exact (nth_error_In _ _ Hc).
    - destruct (cp_after cps c' b Hc' H) as (_ & X & _). rewrite X in E2. injection E2 as <-. apply HR. exact (nth_error_In _ _ Hc').
    - destruct (cp_mid cps i c0 c1 a H0 H1 Ha) as (_ & X & _). rewrite X in E2. injection E2 as <-. pose proof (HR c0 (nth_error_In _ _ H0)). pose proof (HR c1 (nth_error_In _ _ H1)). nra. }
  eexists. exists r. split; [unfold lane_pose; rewrite Eb; cbn [bind]; rewrite E1; cbn [bind]; rewrite E2; cbn [bind]; reflexivity|].
  cbn [lp_lateral_left lp_lateral_right lp_outside_left lp_outside_right lp_lateral_inside lp_along_before lp_along_inside lp_along_after lp_inside lp_lateral lp_along_lane lp_relative_heading lp_correct_direction lp_distance_from_center lp_distance_from_left lp_distance_from_right].
  split; [exact Hr|]. split; [reflexivity|]. split; [reflexivity|]. split.
  { unfold exactly_one. destruct (Rlt_dec r lat) as [L|L].
    - left. rewrite (proj2 (ltb_iff _ _) L), (proj2 (ltb_false lat (- r))) by lra. rewrite (proj2 (leb_false lat r) L), andb_false_r. auto.
    - destruct (Rlt_dec lat (- r)) as [L2|L2].
      + right; right. rewrite (proj2 (ltb_iff _ _) L2), (proj2 (ltb_false r lat)) by lra. rewrite (proj2 (leb_false (- r) lat) L2). auto.
      + right; left. rewrite (proj2 (ltb_false r lat)), (proj2 (ltb_false lat (- r))), (proj2 (leb_iff (- r) lat)), (proj2 (leb_iff lat r)) by lra. auto. }
  split; [apply ltb_iff|]. split; [apply ltb_iff|]. split; [apply ltb_iff|]. split; [rewrite andb_true_iff, leb_iff, ltb_iff; reflexivity|]. split; [apply ltb_iff|]. split; [reflexivity|].
  split; [reflexivity|]. split; [reflexivity|]. split; [reflexivity|]. split.
  { rewrite leb_iff. split; [intro H|intros [A B]; apply Rabs_le; lra]. pose proof (Rle_abs h). pose proof (Rle_abs (- h)) as N. rewrite Rabs_Ropp in N. lra. }
  split; [reflexivity|]. intro H. apply andb_true_iff in H as [H1 H2]. apply leb_iff in H1. apply leb_iff in H2. rewrite Rabs_pos_eq by lra. rewrite Rabs_left1 by lra. ring.
Qed.

(** At the end of the lane a pose is neither before, inside nor after. *)
Lemma C49_end_of_lane_refuted_pf : forall cps h lat, cps <> [] ->
  exists lp, lane_pose cps (get_lane_length cps) h lat = Ok lp /\ lp_along_before lp = false /\ lp_along_inside lp = false /\ lp_along_after lp = false.
Proof.
  intros cps h lat NE. destruct (C47_defined_pf cps (get_lane_length cps) NE) as [(b & Eb) _]. destruct (cp_defined cps b NE) as (q & r & t & E1 & E2 & _).
  eexists. split; [unfold lane_pose; rewrite Eb; cbn [bind]; rewrite E1; cbn [bind]; rewrite E2; cbn [bind]; reflexivity|]. cbn [lp_along_before lp_along_inside lp_along_after].
  pose proof (S_nonneg cps). unfold get_lane_length. split; [apply ltb_false; exact H|]. split; [rewrite (proj2 (ltb_false _ _)) by lra; apply andb_false_r|apply ltb_false; lra].
Qed.

(** Elsewhere it is exactly one of them. *)
Lemma C49_along_partial_pf : forall cps x h lat lp, lane_pose cps x h lat = Ok lp -> x <> get_lane_length cps -> exactly_one (lp_along_before lp) (lp_along_inside lp) (lp_along_after lp).
Proof.
  intros cps x h lat lp H N. destruct (lane_pose_inv _ _ _ _ _ H) as (b & q & r & _ & _ & _ & ->). cbn [lp_along_before lp_along_inside lp_along_after]. pose proof (S_nonneg cps) as SN. fold (get_lane_length cps) in SN. set (L := get_lane_length cps) in *.
  unfold exactly_one. destruct (Rlt_dec x 0) as [A|A].
  - left. rewrite (proj2 (ltb_iff x 0) A), (proj2 (leb_false 0 x) A), (proj2 (ltb_false L x)) by lra. auto.
  - destruct (Rlt_dec L x) as [B|B]; right; [right|left].
    + rewrite (proj2 (ltb_false x 0)), (proj2 (ltb_false x L)), (proj2 (ltb_iff L x) B) by lra. rewrite andb_false_r. auto.
    + assert (x < L) by lra. rewrite (proj2 (ltb_false x 0)), (proj2 (ltb_false L x)), (proj2 (ltb_iff x L)), (proj2 (leb_iff 0 x)) by lra. auto.
Qed.

(** The lane pose of a pose: whatever point of the lane the minimiser settles on,
    lateral offset and relative heading are those of the pose in the frame of that
    point, and the along-lane coordinate is that point's. *)
Lemma C49_of_pose_pf : forall minimize cps q tol, cps <> [] -> is_se2 q ->
  exists lp beta q0 lon, lane_pose_from_SE2_generic minimize cps q tol = Ok lp /\ center_point cps beta = Ok q0 /\ along_lane_from_beta cps beta = Ok (lp_along_lane lp) /\
    q = mmul q0 (SE2_from_translation_angle (lon, lp_lateral lp) (lp_relative_heading lp)) /\ - PI < lp_relative_heading lp <= PI.
Proof.
  intros minimize cps q tol NE Hq. unfold lane_pose_from_SE2_generic, find_along_lane_closest_point. destruct (first_last cps NE) as (c & _ & Hc & _). unfold item at 1. rewrite Hc. cbn [bind].
  set (beta := minimize _ _ _). destruct (cp_defined cps beta NE) as (q0 & r0 & t0 & E1 & _ & _ & S0). rewrite E1. cbn [bind fst snd].
  destruct (C47_defined_pf cps beta NE) as [_ (y & Ey)]. rewrite Ey. cbn [bind].
  destruct (C60_relative_pose_pf q0 q S0) as (rel & Er & Em & _ & Sr & _). rewrite Er. cbn [bind]. specialize (Sr Hq).
  destruct (C47_defined_pf cps y NE) as [(b' & Eb) _]. destruct (cp_defined cps b' NE) as (q1 & r1 & t1 & F1 & F2 & _).
  eexists. exists beta, q0, (fst (translation_from_SE2 rel)). split; [unfold lane_pose; rewrite Eb; cbn [bind]; rewrite F1; cbn [bind]; rewrite F2; cbn [bind]; reflexivity|].
  cbn [lp_along_lane lp_lateral lp_relative_heading]. split; [exact E1|]. split; [exact Ey|]. split; [|apply angle_range].
  rewrite <- Em. f_equal. rewrite <- (as_from rel Sr) at 1. reflexivity.
Qed.

(** Between two control points (ends included) the centre line follows the constant
    speed arc from one to the other, and passes through both; outside it continues
    straight along the first and last heading. *)
Lemma C50_centre_line_pf : forall cps i c0 c1 b, consecutive cps i c0 c1 -> INR i <= b <= INR i + 1 ->
  center_point cps b = Ok (SE2_interpolate (as_SE2 (cp_q c0)) (as_SE2 (cp_q c1)) (b - INR i)).
Proof.
  intros cps i c0 c1 b [H0 H1] B. destruct (Rlt_dec b (INR i + 1)) as [L|L].
  - replace b with (INR i + (b - INR i)) at 1 by ring. apply (cp_mid cps i c0 c1 (b - INR i) H0 H1). lra.
  - assert (b = INR (S i)) as -> by (rewrite S_INR; lra). replace (INR (S i) - INR i) with 1 by (rewrite S_INR; ring). rewrite interp_1 by apply is_se2_as.
    assert (NE : cps <> []) by (intros ->; destruct i; discriminate).
    destruct (nth_error cps (S (S i))) as [c2|] eqn:H2.
    + replace (INR (S i)) with (INR (S i) + 0) by ring. destruct (cp_mid cps (S i) c1 c2 0 H1 H2 ltac:(lra)) as (E & _). rewrite E, interp_0. reflexivity.
    + apply nth_error_None in H2. assert (K : (S i < length cps)%nat) by (apply nth_error_Some; rewrite H1; discriminate). assert (E : S i = (length cps - 1)%nat) by lia.
      rewrite E in H1 |- *. rewrite <- (last_beta_INR cps NE). destruct (cp_after cps c1 (last_beta cps) H1 ltac:(lra)) as (X & _). rewrite X, Rminus_eq_0, interp_0. reflexivity.
Qed.

Lemma C50_control_points_pf : forall cps i c, nth_error cps i = Some c -> center_point cps (INR i) = Ok (as_SE2 (cp_q c)) /\ radius cps (INR i) = Ok (cp_r c) /\
  exists t, center_point_fast cps (INR i) = Ok t /\ t_p t = t_p (cp_q c) /\ t_theta t = t_theta (cp_q c).
Proof.
  intros cps i c H. assert (NE : cps <> []) by (intros ->; destruct i; discriminate).
  assert (LZ : forall t u, t_p (lerp t u 0) = t_p t /\ t_theta (lerp t u 0) = t_theta t).
  { intros [[x y] th] [[x' y'] th']. unfold lerp, vadd, vscale. cbn [t_p t_theta fst snd]. split; [f_equal; ring|ring]. }
  destruct (nth_error cps (S i)) as [c1|] eqn:H1.
  - replace (INR i) with (INR i + 0) by ring. destruct (cp_mid cps i c c1 0 H H1 ltac:(lra)) as (E1 & E2 & E3). rewrite E1, E2, interp_0. split; [reflexivity|]. split; [f_equal; ring|].
    eexists. split; [exact E3|]. apply LZ.
  - apply nth_error_None in H1. assert (K : (i < length cps)%nat) by (apply nth_error_Some; rewrite H; discriminate). assert (E : i = (length cps - 1)%nat) by lia.
    rewrite E in H |- *. rewrite <- (last_beta_INR cps NE). destruct (cp_after cps c (last_beta cps) H ltac:(lra)) as (E1 & E2 & E3). rewrite Rminus_eq_0 in E1, E3. rewrite E1, E2, interp_0. split; [reflexivity|]. split; [reflexivity|].
    eexists. split; [exact E3|]. apply LZ.
Qed.

Lemma C50_radius_pf : forall cps b, cps <> [] ->
  (forall c, nth_error cps 0 = Some c -> b <= 0 -> radius cps b = Ok (cp_r c)) /\
  (forall c, nth_error cps (length cps - 1) = Some c -> last_beta cps <= b -> radius cps b = Ok (cp_r c)) /\
  (forall i c0 c1, consecutive cps i c0 c1 -> INR i <= b <= INR i + 1 -> exists r, radius cps b = Ok r /\
     r = cp_r c0 + (b - INR i) * (cp_r c1 - cp_r c0) /\ Rmin (cp_r c0) (cp_r c1) <= r <= Rmax (cp_r c0) (cp_r c1)).
Proof.
  intros cps b NE. split; [|split].
  - intros c H B. destruct (Rlt_dec b 0) as [L|L]; [apply (cp_neg cps c b H L)|]. assert (b = INR 0) as -> by (cbn; lra). apply (C50_control_points_pf cps 0 c H).
  - intros c H B. apply (cp_after cps c b H B).
  - intros i c0 c1 [H0 H1] B.
    assert (E : radius cps b = Ok (cp_r c0 + (b - INR i) * (cp_r c1 - cp_r c0))).
    { destruct (Rlt_dec b (INR i + 1)) as [L|L].
      - replace b with (INR i + (b - INR i)) at 1 by ring. destruct (cp_mid cps i c0 c1 (b - INR i) H0 H1 ltac:(lra)) as (_ & X & _). rewrite X. f_equal. ring.
      - assert (b = INR (S i)) as -> by (rewrite S_INR; lra). destruct (C50_control_points_pf cps (S i) c1 H1) as (_ & X & _). rewrite X, S_INR. f_equal. ring. }
    eexists. split; [exact E|]. split; [reflexivity|]. unfold Rmin, Rmax. destruct (Rle_dec (cp_r c0) (cp_r c1)); nra.
Qed.

(** The fast variant is on the straight segment between the control points. *)
Lemma C50_fast_on_segment_pf : forall cps i c0 c1 b, consecutive cps i c0 c1 -> INR i <= b < INR i + 1 ->
  exists t, center_point_fast cps b = Ok t /\ vdist (t_p (cp_q c0)) (t_p t) = (b - INR i) * vdist (t_p (cp_q c0)) (t_p (cp_q c1)) /\
    vdist (t_p t) (t_p (cp_q c1)) = (1 - (b - INR i)) * vdist (t_p (cp_q c0)) (t_p (cp_q c1)).
Proof.
  intros cps i c0 c1 b [H0 H1] B. destruct (cp_mid cps i c0 c1 (b - INR i) H0 H1 ltac:(lra)) as (_ & _ & X). replace (INR i + (b - INR i)) with b in X by ring. eexists. split; [exact X|].
  set (a := b - INR i). assert (0 <= a < 1) by (unfold a; lra). destruct (cp_q c0) as [[x y] th], (cp_q c1) as [[x' y'] th']. unfold lerp, vdist. cbn [t_p t_theta].
  split; [replace (vsub (x, y) _) with (vscale a (vsub (x, y) (x', y')))|replace (vsub _ (x', y')) with (vscale (1 - a) (vsub (x, y) (x', y')))];
    try (rewrite vnorm_scale, Rabs_pos_eq by lra; reflexivity); unfold vscale, vsub, vadd; cbn [fst snd]; f_equal; ring.
Qed.

(** Inside the lane, moving the along-lane coordinate moves the centre point at unit
    speed. *)
Lemma C76_inside_partial_pf : forall cps i c0 c1 s l, consecutive cps i c0 c1 -> proper cps -> along_lane_from_beta cps (INR i) = Ok s -> nth_error (get_lane_lengths cps) i = Some l ->
  exists curve : R -> vec,
    (forall x, s <= x < s + l -> ~ within_tolerance x (get_lane_length cps) -> exists b q, beta_from_along_lane cps x = Ok b /\ center_point cps b = Ok q /\ curve x = translation_from_SE2 q) /\
    (forall x, moves_at curve x 1).
Proof.
  intros cps i c0 c1 s l [H0 H1] P Hs Hl. pose proof (proj1 P) as NE. pose proof (proper_lengths cps P i l Hl) as Pl.
  assert (s = psum (get_lane_lengths cps) i) as ->. { replace (INR i) with (INR i + 0) in Hs by ring. rewrite (along_in cps NE i 0 l Hl ltac:(lra)) in Hs. injection Hs as <-. ring. }
  set (s := psum (get_lane_lengths cps) i) in *. set (q0 := as_SE2 (cp_q c0)). set (q1 := as_SE2 (cp_q c1)).
  exists (fun x => translation_from_SE2 (SE2_interpolate q0 q1 ((x - s) / l))). split.
  - intros x Hx W. assert (Hi : (i < length (get_lane_lengths cps))%nat) by (apply nth_error_Some; rewrite Hl; discriminate).
    pose proof (psum_bounds (get_lane_lengths cps) i (lengths_nonneg cps) ltac:(lia)) as B1. pose proof (psum_bounds (get_lane_lengths cps) (S i) (lengths_nonneg cps) ltac:(lia)) as B2. rewrite (psum_S _ i l Hl) in B2. fold s in B1, B2.
    assert (A : 0 <= (x - s) / l < 1). { split; [apply Rmult_le_pos; [lra|left; apply Rinv_0_lt_compat; lra]|]. apply Rmult_lt_reg_r with l; [lra|]. replace ((x - s) / l * l) with (x - s) by (field; lra). lra. }
    assert (E : along_lane_from_beta cps (INR i + (x - s) / l) = Ok x). { rewrite (along_in cps NE i _ l Hl A). fold s. f_equal. field. lra. }
    destruct (C47_parameter_position_parameter_pf cps _ _ P E) as (b & Eb & [->|(_ & _ & T)]); [|contradiction].
    destruct (cp_mid cps i c0 c1 _ H0 H1 A) as (Ec & _). eexists; eexists. split; [exact Eb|]. split; [exact Ec|]. reflexivity.
  - intro x. rewrite (lengths_nth cps i c0 c1 H0 H1) in Hl. injection Hl as Hl.
    destruct (interp_speed q0 q1 ((x - s) / l) (is_se2_as _) (is_se2_as _)) as (dx & dy & D1 & D2 & D3). fold q0 q1 in Hl. rewrite Hl in D3.
    assert (L : derivable_pt_lim (fun y => (y - s) / l) x (/ l)).
    { pose proof (derivable_pt_lim_mult (fun y => y - s) (fct_cte (/ l)) x (1 - 0) 0) as D. unfold mult_fct, fct_cte in D. replace ((1 - 0) * / l + (x - s) * 0) with (/ l) in D by ring. apply D; [|apply derivable_pt_lim_const].
      apply (derivable_pt_lim_minus id (fct_cte s)); [apply derivable_pt_lim_id|apply derivable_pt_lim_const]. }
    exists (dx * / l), (dy * / l). split; [|split].
    + exact (derivable_pt_lim_comp (fun y => (y - s) / l) (fun a => fst (translation_from_SE2 (SE2_interpolate q0 q1 a))) x _ _ L D1).
    + exact (derivable_pt_lim_comp (fun y => (y - s) / l) (fun a => snd (translation_from_SE2 (SE2_interpolate q0 q1 a))) x _ _ L D2).
    + replace (dx * / l, dy * / l) with (vscale (/ l) (dx, dy)) by (unfold vscale; cbn [fst snd]; f_equal; ring). rewrite vnorm_scale, D3, Rabs_pos_eq by (left; apply Rinv_0_lt_compat; lra). field. lra.
Qed.

(** Before the start and after the end it does not: one unit of the along-lane
    coordinate is a tenth of a unit of distance.  A point one metre before the start of
    the lane is reported at -10. *)
Lemma C76_outside_refuted_pf : forall cps c, nth_error cps 0 = Some c ->
  exists q, beta_from_along_lane cps (-10) = Ok (-10) /\ center_point cps (-10) = Ok q /\ vdist (translation_from_SE2 q) (t_p (cp_q c)) = 1.
Proof.
  intros cps c H. destruct (cp_neg cps c (-10) H ltac:(lra)) as (E & _). eexists. split; [apply beta_neg; lra|]. split; [exact E|]. rewrite interp_ahead.
  destruct (cp_q c) as [[x y] th]. unfold vdist, vnorm, vdot, translation_from_SE2, SE2_from_translation_angle, vsub, vadd, vscale. cbn [t_p t_theta fst snd m02 m12].
  pose proof (cs1 th) as C. match goal with |- sqrt ?e = 1 => replace e with (cos th * cos th + sin th * sin th) by field end. rewrite C. apply sqrt_1.
Qed.

(** The heading of the fast centre point is that of the exact one as long as the
    headings of the two control points differ by less than pi. *)
Lemma C77_fast_heading_partial_pf : forall cps i c0 c1 b q t, consecutive cps i c0 c1 -> INR i <= b < INR i + 1 -> - PI < t_theta (cp_q c1) - t_theta (cp_q c0) <= PI ->
  center_point cps b = Ok q -> center_point_fast cps b = Ok t -> same_angle (t_theta t) (angle_from_SE2 q).
Proof.
  intros cps i c0 c1 b q t [H0 H1] B D Hq Ht. replace b with (INR i + (b - INR i)) in Hq, Ht by ring. destruct (cp_mid cps i c0 c1 (b - INR i) H0 H1 ltac:(lra)) as (E1 & _ & E2).
  rewrite E1 in Hq. injection Hq as <-. rewrite E2 in Ht. injection Ht as <-. set (a := b - INR i).
  set (q0 := cp_q c0) in *. set (q1 := cp_q c1) in *.
  assert (W : angle_from_SE2 (mmul (SE2_inverse (as_SE2 q0)) (as_SE2 q1)) = t_theta q1 - t_theta q0).
  { unfold as_SE2. rewrite se2_inv, se2_mul. replace (- t_theta q0 + t_theta q1) with (t_theta q1 - t_theta q0) by ring. apply angle_id. exact D. }
  assert (X : exists p, SE2_interpolate (as_SE2 q0) (as_SE2 q1) a = SE2_from_translation_angle p (t_theta q0 + a * (t_theta q1 - t_theta q0))).
  { unfold SE2_interpolate. cbv zeta. set (v := SE2_log _). assert (ang v = t_theta q1 - t_theta q0) as V by (unfold v, SE2_log; cbn [ang]; exact W).
    unfold SE2_exp. unfold as_SE2 at 1. rewrite se2_mul. eexists. f_equal. unfold alg_scale. cbn [ang]. rewrite V. reflexivity. }
  destruct X as (p & ->). destruct (angle_cs p (t_theta q0 + a * (t_theta q1 - t_theta q0))) as [Ac As].
  unfold lerp, same_angle. cbn [t_theta]. rewrite Ac, As. split; f_equal; ring.
Qed.

(** A lane heading west: consecutive control points with headings just below pi
    and just above -pi.  Half-way the fast centre point faces east. *)
Lemma C77_fast_heading_refuted_pf : exists cps q t, center_point cps (1 / 2) = Ok q /\ center_point_fast cps (1 / 2) = Ok t /\
  (forall c, In c cps -> - PI < t_theta (cp_q c) <= PI /\ cos (t_theta (cp_q c)) < 0) /\ cos (t_theta t) = 1 /\ cos (angle_from_SE2 q) = -1.
Proof.
  pose proof PI2_3_2 as P3. set (u := PI - 1 / 10).
  pose (c0 := mkCP (mkSE2T (1, 0) u) 1). pose (c1 := mkCP (mkSE2T (0, 0) (- u)) 1).
  destruct (cp_mid [c0; c1] 0 c0 c1 (1 / 2) eq_refl eq_refl ltac:(lra)) as (E1 & _ & E2). change (INR 0) with 0 in E1, E2. rewrite Rplus_0_l in E1, E2.
  exists [c0; c1]. eexists; eexists. split; [exact E1|]. split; [exact E2|].
  assert (Cu : cos u < 0) by (apply cos_lt_0; unfold u; lra).
  split; [|split].
  - intros c [<-|[<-|[]]]; cbn [c0 c1 cp_q t_theta]; [split; [unfold u; lra|exact Cu]|split; [unfold u; lra|rewrite cos_neg; exact Cu]].
  - unfold lerp. cbn [t_theta c0 c1 cp_q]. replace (u * (1 - 1 / 2) + - u * (1 / 2)) with 0 by field. apply cos_0.
  - set (q0 := mkSE2T (1, 0) u). set (q1 := mkSE2T (0, 0) (- u)).
    assert (W : angle_from_SE2 (mmul (SE2_inverse (as_SE2 q0)) (as_SE2 q1)) = 2 / 10).
    { unfold as_SE2. rewrite se2_inv, se2_mul. cbn [t_theta q0 q1 t_p]. match goal with |- angle_from_SE2 (SE2_from_translation_angle ?p _) = _ => destruct (angle_cs p (- u + - u)) as [Ac As]; rewrite <- (angle_id p (2 / 10)) by lra end.
      match goal with |- angle_from_SE2 ?m = angle_from_SE2 ?m' => replace m with m'; [reflexivity|] end. unfold SE2_from_translation_angle.
      assert (cos (- u + - u) = cos (2 / 10) /\ sin (- u + - u) = sin (2 / 10)) as [-> ->]; [|reflexivity].
      replace (- u + - u) with (2 / 10 - 2 * PI) by (unfold u; field). split; [rewrite cos_minus|rewrite sin_minus]; rewrite cos_2PI, sin_2PI; ring. }
    assert (X : exists p, SE2_interpolate (as_SE2 q0) (as_SE2 q1) (1 / 2) = SE2_from_translation_angle p (u + 1 / 2 * (2 / 10))).
    { unfold SE2_interpolate. cbv zeta. set (v := SE2_log _). assert (ang v = 2 / 10) as V by (unfold v, SE2_log; cbn [ang]; exact W).
      unfold SE2_exp. unfold as_SE2 at 1. rewrite se2_mul. eexists. f_equal. unfold alg_scale. cbn [ang q0 t_theta]. rewrite V. reflexivity. }
    destruct X as (p & X). change (cp_q c0) with q0. change (cp_q c1) with q1. rewrite X. destruct (angle_cs p (u + 1 / 2 * (2 / 10))) as [Ac _]. rewrite Ac. replace (u + 1 / 2 * (2 / 10)) with PI by (unfold u; field). apply cos_PI.
Qed.

(** A lane built from border vertices has its borders there: the left vertex is at
    half the width to the left of the control point, the right one to the right. *)
Lemma C78_borders_pf : forall left right center cps i c l r m, from_vertices left right center = Ok cps -> nth_error cps i = Some c ->
  nth_error left i = Some l -> nth_error right i = Some r -> nth_error center i = Some m -> m = ((fst l + fst r) / 2, (snd l + snd r) / 2) -> l <> r ->
  SE2_apply_T2 (as_SE2 (cp_q c)) (0, cp_r c) = l /\ SE2_apply_T2 (as_SE2 (cp_q c)) (0, - cp_r c) = r /\ t_p (cp_q c) = m /\ 2 * cp_r c = vdist l r.
Proof.
  intros left right center cps i c l r m H Hc Hl Hr Hm Em N.
  assert (G : forall center j cps, from_vertices_loop left right j center = Ok cps -> forall i c m, nth_error cps i = Some c -> nth_error center i = Some m ->
    exists l r, nth_error left (j + i) = Some l /\ nth_error right (j + i) = Some r /\ c = mkCP (mkSE2T m (atan2 (snd (rot90 (vsub r l))) (fst (rot90 (vsub r l))))) (vnorm (vsub r l) / 2)).
  { clear. induction center as [|m0 center IH]; intros j cps H i c m Hc Hm; [destruct i; discriminate|]. cbn [from_vertices_loop] in H. unfold item in H.
    destruct (nth_error right j) as [r|] eqn:Er; cbn [bind] in H; [|discriminate]. destruct (nth_error left j) as [l|] eqn:El; cbn [bind] in H; [|discriminate].
    destruct (from_vertices_loop left right (S j) center) as [cps'|] eqn:E; cbn [bind] in H; [|discriminate]. injection H as <-. destruct i as [|i].
    - cbn in Hc, Hm. injection Hc as <-. injection Hm as ->. exists l, r. rewrite Nat.add_0_r. auto.
    - cbn [nth_error] in Hc, Hm. replace (j + S i)%nat with (S j + i)%nat by lia. exact (IH (S j) cps' E i c m Hc Hm). }
  destruct (G center 0%nat cps H i c m Hc Hm) as (l' & r' & Hl' & Hr' & ->). cbn [Nat.add] in Hl', Hr'. assert (l' = l) as -> by congruence. assert (r' = r) as -> by congruence. clear G.
  destruct l as [lx ly], r as [rx ry]. subst m. cbn [fst snd] in *. unfold vsub, rot90. cbn [fst snd cp_q cp_r t_p].
  set (dx := rx - lx). set (dy := ry - ly). destruct (atan2_spec dx (- dy)) as [A B]. set (th := atan2 dx (- dy)) in *.
  assert (E : vnorm (- dy, dx) = vnorm (dx, dy)) by (unfold vnorm, vdot; cbn [fst snd]; f_equal; ring). rewrite E in A, B. set (w := vnorm (dx, dy)) in *.
  unfold SE2_apply_T2, as_SE2, SE2_from_translation_angle. cbn [m00 m01 m02 m10 m11 m12 fst snd t_p t_theta].
  split; [|split; [|split; [reflexivity|]]].
  - f_equal; [replace (cos th * 0 + - sin th * (w / 2) + (lx + rx) / 2 * 1) with (- (w * sin th) / 2 + (lx + rx) / 2) by field; rewrite B; unfold dx; field
             |replace (sin th * 0 + cos th * (w / 2) + (ly + ry) / 2 * 1) with (w * cos th / 2 + (ly + ry) / 2) by field; rewrite A; unfold dy; field].
  - f_equal; [replace (cos th * 0 + - sin th * - (w / 2) + (lx + rx) / 2 * 1) with (w * sin th / 2 + (lx + rx) / 2) by field; rewrite B; unfold dx; field
             |replace (sin th * 0 + cos th * - (w / 2) + (ly + ry) / 2 * 1) with (- (w * cos th) / 2 + (ly + ry) / 2) by field; rewrite A; unfold dy; field].
  - rewrite vdist_sym. unfold w, vdist, vsub. cbn [fst snd]. fold dx dy. field.
Qed.

(** One control point per centre vertex; fewer border vertices: IndexError. *)
Lemma C78_lengths_pf : forall left right center,
  ((length center <= length left)%nat -> (length center <= length right)%nat -> exists cps, from_vertices left right center = Ok cps /\ length cps = length center) /\
  ((length left < length center)%nat \/ (length right < length center)%nat -> from_vertices left right center = Err PyIndexError).
Proof.
  intros left right center. unfold from_vertices.
  assert (G : forall center j, ((j + length center <= length left)%nat -> (j + length center <= length right)%nat -> exists cps, from_vertices_loop left right j center = Ok cps /\ length cps = length center) /\
    ((length left < j + length center)%nat \/ (length right < j + length center)%nat -> (j <= length left)%nat -> (j <= length right)%nat -> from_vertices_loop left right j center = Err PyIndexError)).
  { clear. induction center as [|m center IH]; intro j; cbn [length from_vertices_loop].
    - split; [intros _ _; exists []; auto|lia].
    - unfold item. destruct (IH (S j)) as [I1 I2]. split.
      + intros H1 H2. destruct (nth_error right j) as [r|] eqn:Er; [|apply nth_error_None in Er; lia]. destruct (nth_error left j) as [l|] eqn:El; [|apply nth_error_None in El; lia]. cbn [bind].
        destruct I1 as (cps & E & L); [lia|lia|]. rewrite E. cbn [bind]. eexists. split; [reflexivity|]. cbn [length]. rewrite L. reflexivity.
      + intros H H1 H2. destruct (nth_error right j) as [r|] eqn:Er; [|reflexivity]. destruct (nth_error left j) as [l|] eqn:El; [|reflexivity]. cbn [bind].
        assert (j < length left)%nat by (apply nth_error_Some; rewrite El; discriminate). assert (j < length right)%nat by (apply nth_error_Some; rewrite Er; discriminate).
        rewrite I2 by lia. reflexivity. }
  destruct (G center 0%nat) as [G1 G2]. cbn [Nat.add] in G1, G2. split; [exact G1|]. intro H. apply G2; [exact H|lia|lia].
Qed.

(** is_inside_from_T2value tells that the position is within the half width of a
    centre point of the lane. *)
Lemma C79_inside_sound_pf : forall minimize cps p tol, cps <> [] -> is_inside_from_T2value minimize cps p tol = Ok true ->
  exists beta t r, 0 <= beta <= last_beta cps /\ center_point_fast cps beta = Ok t /\ radius cps beta = Ok r /\ vdist (t_p t) p <= r.
Proof.
  intros minimize cps p tol NE H. unfold is_inside_from_T2value, find_along_lane_closest_point in H. destruct (first_last cps NE) as (c & _ & Hc & _). unfold item at 1 in H. rewrite Hc in H. cbn [bind] in H.
  set (beta := minimize _ _ _) in H. destruct (cp_defined cps beta NE) as (q0 & r0 & t0 & E1 & E2 & E3 & S0). rewrite E1 in H. cbn [bind fst] in H. rewrite E2 in H. cbn [bind] in H. rewrite E3 in H. cbn [bind] in H. injection H as H.
  apply andb_true_iff in H as [H1 H2]. apply andb_true_iff in H2 as [H2 H3]. apply leb_iff in H1. apply leb_iff in H2. apply leb_iff in H3. exists beta, t0, r0. split; [lra|]. split; [exact E3|]. split; [exact E2|exact H1].
Qed.

Definition ex_straight : lanelet := [mkCP (mkSE2T (0, 0) 0) 2; mkCP (mkSE2T (4, 0) 0) 2].

Lemma ex_straight_end : center_point ex_straight 1 = Ok (as_SE2 (mkSE2T (4, 0) 0)) /\ radius ex_straight 1 = Ok 2 /\ (exists t, center_point_fast ex_straight 1 = Ok t /\ t_p t = (4, 0) /\ t_theta t = 0).
Proof. exact (C50_control_points_pf ex_straight 1 (mkCP (mkSE2T (4, 0) 0) 2) eq_refl). Qed.

Lemma ex_straight_unique b q : center_point ex_straight b = Ok q -> translation_from_SE2 q = (4, 0) -> b = 1.
Proof.
  intros H T. pose (c0 := mkCP (mkSE2T (0, 0) 0) 2). pose (c1 := mkCP (mkSE2T (4, 0) 0) 2).
  assert (LB : last_beta ex_straight = 1) by (unfold last_beta; cbn; lra).
  destruct (cp_cases ex_straight b ltac:(discriminate)) as [B|[B|(i & d0 & d1 & a & H0 & H1 & Ha & ->)]].
  - destruct (cp_neg ex_straight c0 b eq_refl B) as (E & _). rewrite E, interp_ahead in H. injection H as <-. cbn in T. injection T as T _. rewrite cos_0 in T. lra.
  - destruct (cp_after ex_straight c1 b eq_refl B) as (E & _). rewrite E, interp_ahead, LB in H. injection H as <-. cbn in T. injection T as T _. rewrite cos_0 in T. lra.
  - destruct i as [|[|i]]; [|discriminate H1|destruct i; discriminate H1]. cbn in H0, H1. injection H0 as <-. injection H1 as <-.
    destruct (cp_mid ex_straight 0 c0 c1 a eq_refl eq_refl Ha) as (E & _). rewrite E in H. assert (Q : q = SE2_interpolate (as_SE2 (cp_q c0)) (as_SE2 (cp_q c1)) a) by congruence. exfalso.
    assert (X : as_SE2 (cp_q c1) = mmul (as_SE2 (cp_q c0)) (SE2_from_translation_angle (4, 0) 0)).
    { unfold as_SE2. rewrite se2_mul. cbn [c0 c1 cp_q t_p t_theta]. f_equal; [|ring]. unfold SE2_apply_T2, SE2_from_translation_angle. cbn [m00 m01 m02 m10 m11 m12 fst snd]. rewrite cos_0, sin_0. f_equal; ring. }
    rewrite Q, X, interp_straight in T. cbn in T. injection T as T _. rewrite cos_0 in T. lra.
Qed.

(** The two tests of being inside a lane disagree at its end, whatever exact
    minimiser is used: the position (4, 0) is on the centre line of a straight lane of
    half width 2. *)
Lemma C79_tests_disagree_refuted_pf : exists cps (p : vec), cps <> [] /\
  forall minimize : minimizer, (forall f br tol, (exists x, forall y, f x <= f y) -> forall y, f (minimize f br tol) <= f y) ->
  is_inside_from_T2value minimize cps p 0 = Ok true /\ exists lp, lane_pose_from_SE2_generic minimize cps (SE2_from_translation_angle p 0) 0 = Ok lp /\ lp_lateral lp = 0 /\ lp_inside lp = false.
Proof.
  exists ex_straight, (4, 0). split; [discriminate|]. intros minimize M. destruct ex_straight_end as (E1 & E2 & t & E3 & Tp & Tt).
  set (f := fun beta => get_delta (4, 0) (center_point ex_straight beta)).
  assert (F1 : f 1 = 0). { unfold f. rewrite E1. unfold get_delta. replace (vsub _ _) with ((0, 0) : vec); [unfold vnorm, vdot; cbn [fst snd]; replace (0 * 0 + 0 * 0) with 0 by ring; rewrite sqrt_0; ring|]. cbn. unfold vsub. cbn. f_equal; ring. }
  assert (FP : forall y, 0 <= f y). { intro y. unfold f, get_delta. destruct (center_point ex_straight y); [|lra]. apply pow2_ge_0. }
  assert (B : forall br tol, minimize f br tol = 1).
  { intros br tol. assert (Z : f (minimize f br tol) = 0). { apply Rle_antisym; [|apply FP]. rewrite <- F1. apply M. exists 1. intro y. rewrite F1. apply FP. }
    set (b := minimize f br tol) in *. destruct (cp_defined ex_straight b ltac:(discriminate)) as (q & _ & _ & Eq & _). apply (ex_straight_unique b q Eq).
    unfold f in Z. rewrite Eq in Z. cbn [get_delta] in Z. assert (N : vnorm (vsub (4, 0) (translation_from_SE2 q)) = 0) by nra. apply vnorm_zero in N.
    destruct (translation_from_SE2 q) as [x y]. unfold vsub in N. cbn [fst snd] in N. injection N as N1 N2. f_equal; lra. }
  assert (FC : forall q tol, q = (4, 0) -> find_along_lane_closest_point minimize ex_straight q tol None = Ok (1, as_SE2 (mkSE2T (4, 0) 0))).
  { intros q tol ->. unfold find_along_lane_closest_point. unfold item. cbn [nth_error ex_straight bind]. fold f. fold ex_straight. fold f. rewrite B, E1. reflexivity. }
  split.
  - unfold is_inside_from_T2value. rewrite FC by reflexivity. cbn [bind fst]. rewrite E2. cbn [bind]. rewrite E3. cbn [bind]. rewrite Tp. f_equal.
    replace (vsub (4, 0) (4, 0)) with ((0, 0) : vec) by (unfold vsub; cbn; f_equal; ring). rewrite (proj2 (leb_iff _ 2)) by (unfold vnorm, vdot; cbn [fst snd]; replace (0 * 0 + 0 * 0) with 0 by ring; rewrite sqrt_0; lra).
    rewrite (proj2 (leb_iff 0 1)) by lra. rewrite (proj2 (leb_iff 1 (last_beta ex_straight))); [reflexivity|unfold last_beta; cbn; lra].
  - unfold lane_pose_from_SE2_generic. rewrite FC by reflexivity. cbn [bind fst snd].
    destruct (C47_end_points_pf ex_straight ltac:(discriminate)) as (_ & A & Bt & _). assert (LB : last_beta ex_straight = 1) by (unfold last_beta; cbn; lra). rewrite LB in A, Bt. rewrite A. cbn [bind].
    destruct (C60_relative_pose_pf (as_SE2 (mkSE2T (4, 0) 0)) (SE2_from_translation_angle (4, 0) 0) (is_se2_as _)) as (rel & Er & _ & U & _). rewrite Er. cbn [bind].
    assert (rel = SE2_from_translation_angle (0, 0) 0) as ->.
    { symmetry. apply U. unfold as_SE2. rewrite se2_mul. cbn [t_p t_theta]. f_equal; [|ring]. unfold SE2_apply_T2, SE2_from_translation_angle. cbn [m00 m01 m02 m10 m11 m12 fst snd]. rewrite cos_0, sin_0. f_equal; ring. }
    destruct (C49_end_of_lane_refuted_pf ex_straight (angle_from_SE2 (SE2_from_translation_angle (0, 0) 0)) (snd (translation_from_SE2 (SE2_from_translation_angle (0, 0) 0))) ltac:(discriminate)) as (lp & E & _ & I & _).
    exists lp. split; [exact E|]. destruct (lane_pose_inv _ _ _ _ _ E) as (b & q & r & _ & _ & _ & ->). cbn [lp_along_inside] in I. cbn [lp_lateral lp_inside]. split; [cbn; ring|]. rewrite I. apply andb_false_r.
Qed.

Lemma mapM_ok {A B} (f : A -> result B) (g : A -> B) l : (forall x, f x = Ok (g x)) -> mapM f l = Ok (map g l).
Proof. intro H. induction l as [|x l IH]; [reflexivity|]. cbn [mapM map]. rewrite H. cbn [bind]. rewrite IH. reflexivity. Qed.

(** The outline of a lane: with n segments and m points on each, n m points on the right
    border from the start to the end, then n m points on the left border back to the
    start.  The points number k from either end of the outline face each other across
    the centre line, at its half width; the first is at the start of the lane and the
    last at its end. *)
Lemma C80_outline_pf : forall cps m num, cps <> [] -> (forall c, In c cps -> 0 <= cp_r c) -> num = ((length cps - 1) * m)%nat -> (2 <= num)%nat ->
  exists outline, lane_profile cps m = Ok outline /\ length outline = (2 * num)%nat /\
    forall k, (k < num)%nat -> exists beta q r a b, center_point cps beta = Ok q /\ radius cps beta = Ok r /\ 0 <= beta <= last_beta cps /\
      (k = 0%nat -> beta = 0) /\ (k = (num - 1)%nat -> beta = last_beta cps) /\ beta * INR (num - 1) = INR k * last_beta cps /\
      nth_error outline k = Some a /\ nth_error outline (2 * num - 1 - k) = Some b /\
      SE2_apply_T2 q (0, - r) = a /\ SE2_apply_T2 q (0, r) = b /\ vdist a (translation_from_SE2 q) = r /\ vdist b (translation_from_SE2 q) = r.
Proof.
  intros cps m num NE HR En Hn. pose proof (last_beta_INR cps NE) as LB.
  assert (D : forall b, exists qr, center_point cps b = Ok (fst qr) /\ radius cps b = Ok (snd qr) /\ is_se2 (fst qr)).
  { intro b. destruct (cp_defined cps b NE) as (q & r & t & E1 & E2 & _ & S). exists (q, r). auto. }
  pose (gq := fun b => match center_point cps b with Ok q => q | Err _ => mid end). pose (gr := fun b => match radius cps b with Ok r => r | Err _ => 0 end).
  assert (DG : forall b, center_point cps b = Ok (gq b) /\ radius cps b = Ok (gr b) /\ is_se2 (gq b)).
  { intro b. destruct (D b) as ([q r] & E1 & E2 & S). cbn [fst snd] in *. unfold gq, gr. rewrite E1, E2. auto. }
  pose (g := fun b => (SE2_apply_T2 (gq b) (0, gr b), SE2_apply_T2 (gq b) (0, - gr b))).
  set (n := (length cps - 1)%nat) in *.
  assert (LS : linspace (INR n) num = map (fun k => INR k * (INR n / INR (num - 1))) (seq 0 num)).
  { destruct num as [|[|num']]; [lia|lia|]. cbn [Nat.sub]. reflexivity. }
  assert (P : lane_profile cps m = Ok (map snd (map g (linspace (INR n) num)) ++ rev (map fst (map g (linspace (INR n) num))))).
  { assert (U : lane_profile cps m = bind (mapM (fun beta => bind (center_point cps beta) (fun q => bind (radius cps beta) (fun r => Ok (SE2_apply_T2 q (0, r), SE2_apply_T2 q (0, - r))))) (linspace (INR n) (n * m))) (fun ps => Ok (map snd ps ++ rev (map fst ps)))) by (unfold n; clear -NE; destruct cps; [contradiction|reflexivity]).
    rewrite U, <- En.
    rewrite (mapM_ok _ g); [reflexivity|]. intro b. destruct (DG b) as (E1 & E2 & _). rewrite E1. cbn [bind]. rewrite E2. reflexivity. }
  set (betas := linspace (INR n) num) in *. assert (LL : length betas = num) by (rewrite LS, map_length, seq_length; reflexivity).
  eexists. split; [exact P|]. split; [rewrite app_length, rev_length, !map_length, LL; lia|].
  intros k Hk. set (beta := INR k * (INR n / INR (num - 1))).
  assert (Nk : nth_error betas k = Some beta). { rewrite LS. rewrite nth_error_map. rewrite (nth_error_nth' (seq 0 num) 0%nat) by (rewrite seq_length; exact Hk). rewrite seq_nth by exact Hk. reflexivity. }
  assert (Pn : 0 < INR (num - 1)) by (apply lt_0_INR; lia). assert (BB : beta * INR (num - 1) = INR k * INR n) by (unfold beta; field; lra).
  assert (Kn : INR k <= INR (num - 1)) by (apply le_INR; lia). pose proof (pos_INR k). pose proof (pos_INR n).
  exists beta, (gq beta), (gr beta). eexists; eexists. destruct (DG beta) as (E1 & E2 & SE). split; [exact E1|]. split; [exact E2|]. rewrite LB.
  split; [|split; [|split; [|split; [exact BB|]]]].
  - split; [unfold beta; apply Rmult_le_pos; [lra|]; apply Rmult_le_pos; [lra|]; left; apply Rinv_0_lt_compat; exact Pn|]. apply Rmult_le_reg_r with (INR (num - 1)); [exact Pn|]. rewrite BB. nra.
  - intros ->. unfold beta. cbn. ring.
  - intros ->. unfold beta. field. lra.
  - split; [rewrite nth_error_app1 by (rewrite !map_length, LL; exact Hk); rewrite !nth_error_map, Nk; reflexivity|].
    split.
    { rewrite nth_error_app2 by (rewrite !map_length, LL; lia). rewrite !map_length, LL. rewrite (nth_error_nth' _ ((0, 0) : vec)) by (rewrite rev_length, !map_length, LL; lia). rewrite rev_nth by (rewrite !map_length, LL; lia). rewrite !map_length, LL.
      replace (num - S (2 * num - 1 - k - num))%nat with k by lia. rewrite (nth_error_nth (map fst (map g betas)) k (x := fst (g beta))); [reflexivity|]. rewrite !nth_error_map, Nk. reflexivity. }
    split; [reflexivity|]. split; [reflexivity|].
    assert (Hr : 0 <= gr beta).
    { destruct (first_last cps NE) as (c & c' & Hc & Hc'). destruct (cp_cases cps beta NE) as [B|[B|(i & c0 & c1 & a & G0 & G1 & Ga & Eb)]].
      - destruct (cp_neg cps c beta Hc B) as (_ & X & _). rewrite X in E2. injection E2 as <-. apply HR. exact (nth_error_In _ _ Hc).
      - destruct (cp_after cps c' beta Hc' B) as (_ & X & _). rewrite X in E2. injection E2 as <-. apply HR. exact (nth_error_In _ _ Hc').
      - rewrite Eb in E2. destruct (cp_mid cps i c0 c1 a G0 G1 Ga) as (_ & X & _). rewrite X in E2. rewrite Eb. injection E2 as <-. pose proof (HR c0 (nth_error_In _ _ G0)). pose proof (HR c1 (nth_error_In _ _ G1)). nra. }
    unfold g. cbn [fst snd]. destruct SE as (p & th & SE). apply pose_at_iff in SE. rewrite SE. clear SE E1. generalize dependent (gr beta). intros r E2 Hr. pose proof (cs1 th) as C. unfold SE2_apply_T2, SE2_from_translation_angle, translation_from_SE2, vdist, vnorm, vdot, vsub. cbn [m00 m01 m02 m10 m11 m12 fst snd].
    split; match goal with |- sqrt ?e = _ => replace e with ((cos th * cos th + sin th * sin th) * (r * r)) by ring end; rewrite C, Rmult_1_l; apply sqrt_square; exact Hr.
Qed.

(** With a single point the outline has only the start of the lane, with none it is
    empty. *)
Lemma C80_short_outlines_pf : forall cps m, cps <> [] ->
  (((length cps - 1) * m)%nat = 0%nat -> lane_profile cps m = Ok []) /\
  (((length cps - 1) * m)%nat = 1%nat -> exists q r, center_point cps 0 = Ok q /\ radius cps 0 = Ok r /\ lane_profile cps m = Ok [SE2_apply_T2 q (0, - r); SE2_apply_T2 q (0, r)]).
Proof.
  intros cps m NE. destruct (cp_defined cps 0 NE) as (q & r & t & E1 & E2 & _).
  assert (U : lane_profile cps m = bind (mapM (fun beta => bind (center_point cps beta) (fun q => bind (radius cps beta) (fun r => Ok (SE2_apply_T2 q (0, r), SE2_apply_T2 q (0, - r))))) (linspace (INR (length cps - 1)) ((length cps - 1) * m))) (fun ps => Ok (map snd ps ++ rev (map fst ps)))) by (clear -NE; destruct cps; [contradiction|reflexivity]).
  split; intro N; rewrite U, N; [reflexivity|]. exists q, r. split; [exact E1|]. split; [exact E2|]. cbn [linspace mapM]. rewrite E1. cbn [bind]. rewrite E2. reflexivity.
Qed.
