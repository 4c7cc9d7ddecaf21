(** Lemmas on the observation filters. *)
From Coq Require Import QArith Qcanon ZArith List Bool Arith Lia Permutation Sorted.
From Verif Require Import Base Num SeqModel SeqProofs DictLemmas SimulatorModel PerceptionModel PerceptionSpec.
Import ListNotations.
Open Scope Qc_scope.

(** ** interleave *)
Lemma heads_tails {A} (ls : list (list A)) :
  Permutation (flat_map (firstn 1) ls ++ concat (map (@tl A) ls)) (concat ls).
Proof.
  induction ls as [|l r IH]; cbn [flat_map map concat]; [constructor|].
  destruct l as [|a l]; cbn [firstn tl app]; [exact IH|].
  apply perm_skip. rewrite app_assoc, (Permutation_app_comm _ l), <- app_assoc.
  apply Permutation_app_head. exact IH.
Qed.

Lemma list_max_tl {A} (ls : list (list A)) :
  list_max (map (@length A) (map (@tl A) ls)) = pred (list_max (map (@length A) ls)).
Proof.
  induction ls as [|l r IH]; cbn [map list_max fold_right]; [reflexivity|].
  change (fold_right Init.Nat.max 0%nat) with list_max. rewrite IH. destruct l; cbn [tl length]; lia.
Qed.

Lemma interleave_perm {A} (ls : list (list A)) : Permutation (interleave ls) (concat ls).
Proof.
  unfold interleave. remember (list_max (map (@length A) ls)) as n eqn:E. revert ls E.
  induction n as [|n IH]; intros ls E; cbn [interleave_loop].
  - assert (Z : concat ls = []); [|rewrite Z; constructor].
    induction ls as [|l r I]; [reflexivity|]. cbn [map list_max fold_right] in E.
    change (fold_right Init.Nat.max 0%nat) with list_max in E.
    destruct l; cbn [length] in E; [|lia]. cbn [concat app]. apply I. lia.
  - rewrite <- (heads_tails ls). apply Permutation_app_head. apply IH. rewrite list_max_tl, <- E. reflexivity.
Qed.

(** ** bisect_left on a list that never decreases *)
Lemma SS_nth l i j a b : StronglySorted Qcle l -> (i < j)%nat -> nth_error l i = Some a -> nth_error l j = Some b -> a <= b.
Proof.
  intro H. revert i j. induction H as [|x l S IH Fa]; intros i j L Hi Hj; [destruct i; discriminate|].
  destruct j as [|j]; [lia|]. cbn in Hj. destruct i as [|i]; cbn in Hi.
  - injection Hi as <-. rewrite Forall_forall in Fa. apply Fa. eapply nth_error_In; exact Hj.
  - apply (IH i j); [lia|exact Hi|exact Hj].
Qed.

Lemma bisect_left_loop_le a x : StronglySorted Qcle a -> forall fuel lo hi,
  (lo <= hi)%nat -> (hi <= length a)%nat -> (hi - lo <= fuel)%nat ->
  (forall j y, (j < lo)%nat -> nth_error a j = Some y -> y < x) ->
  (forall j y, (hi <= j)%nat -> nth_error a j = Some y -> x <= y) ->
  exists i, bisect_left_loop fuel a x lo hi = Some i /\ (i <= length a)%nat /\
    (forall j y, (j < i)%nat -> nth_error a j = Some y -> y < x) /\
    (forall j y, (i <= j)%nat -> nth_error a j = Some y -> x <= y).
Proof.
  intros Ha fuel. induction fuel as [|f IH]; intros lo hi H1 H2 H3 HL HR; cbn [bisect_left_loop].
  - destruct (Nat.ltb_spec lo hi); [lia|]. exists lo.
    refine (conj eq_refl (conj _ (conj HL _))); [lia|intros j y Hj; apply HR; lia].
  - destruct (Nat.ltb_spec lo hi) as [L|L].
    2:{ exists lo.
        refine (conj eq_refl (conj _ (conj HL _))); [lia|intros j y Hj; apply HR; lia]. }
    set (mid := ((lo + hi) / 2)%nat) in *. cbv zeta.
    assert (Hm : (lo <= mid < hi)%nat).
    { unfold mid. split; [apply Nat.div_le_lower_bound; lia|apply Nat.div_lt_upper_bound; lia]. }
    pose proof (nth_error_nth_Qc a mid 0 ltac:(lia)) as Hn.
    destruct (qltb_spec (nth mid a 0) x) as [C|C].
    + apply IH; try lia; try assumption.
      intros j y Hj Hy. destruct (Nat.eq_dec j mid) as [->|E].
      * rewrite Hn in Hy; injection Hy as <-; exact C.
      * eapply Qcle_lt_trans; [|exact C]. eapply (SS_nth a j mid); [exact Ha| |exact Hy|exact Hn]. lia.
    + apply IH; try lia; try assumption.
      intros j y Hj Hy. destruct (Nat.eq_dec j mid) as [->|E].
      * rewrite Hn in Hy; injection Hy as <-; exact C.
      * eapply Qcle_trans; [exact C|]. eapply (SS_nth a mid j); [exact Ha| |exact Hn|exact Hy]. lia.
Qed.

Lemma bisect_left_le a x : StronglySorted Qcle a ->
  exists i, bisect_left a x = Some i /\ (i <= length a)%nat /\
    (forall j y, (j < i)%nat -> nth_error a j = Some y -> y < x) /\
    (forall j y, (i <= j)%nat -> nth_error a j = Some y -> x <= y).
Proof.
  intro Ha. unfold bisect_left. apply bisect_left_loop_le; try assumption; try lia.
  intros j y Hj Hy. exfalso. apply nth_error_None in Hj. congruence.
Qed.

Lemma nth_error_last {A} (l : list A) x : nth_error (l ++ [x]) (length l) = Some x.
Proof. rewrite nth_error_app2, Nat.sub_diag by lia. reflexivity. Qed.

Lemma nth_error_Some_lt {A} (l : list A) i x : nth_error l i = Some x -> (i < length l)%nat.
Proof. intro H. apply nth_error_Some. congruence. Qed.

Section S.
Context {X F P Z_ : Type} (g : geo X F P Z_).

(** ** Delay filter *)
Notation stamped L := (fun q : simobs X F => (o_time q + L, with_time q (o_time q + L))).

Lemma fed_hist {S} inner L (s0 : S) st past : fed (X:=X) (F:=F) inner L s0 st past -> dl_hist st = map (stamped L) past.
Proof.
  induction 1 as [|st past sc full pov st' out s' o H IH D I]; [reflexivity|].
  unfold delayed_sense in D. rewrite I in D. cbv zeta in D.
  destruct (bisect_left _ _) as [i|]; [|discriminate].
  destruct (nth_error _ i) as [[tt r]|]; [|discriminate]. injection D as <- <-.
  cbn [dl_hist]. rewrite map_app, IH. reflexivity.
Qed.

Lemma in_order_shift (os : list (simobs X F)) L : in_order os -> StronglySorted Qcle (map fst (map (stamped L) os)).
Proof.
  unfold in_order. induction os as [|o r IH]; intro H; cbn [map fst]; [constructor|].
  cbn [map] in H. inversion H as [|? ? H1 H2]; subst. constructor; [apply IH; exact H1|].
  rewrite map_map. cbn [fst]. rewrite Forall_map in *. eapply Forall_impl; [|exact H2].
  intros q Hq. cbn in *. qlra.
Qed.

Lemma in_order_last os (o : simobs X F) q : in_order (os ++ [o]) -> In q (os ++ [o]) -> o_time q <= o_time o.
Proof.
  intros H I. apply In_nth_error in I as [i Hi].
  assert (Li : (i < length (os ++ [o]))%nat) by (apply nth_error_Some; congruence).
  rewrite app_length in Li; cbn in Li.
  destruct (Nat.eq_dec i (length os)) as [->|N].
  - rewrite nth_error_last in Hi. injection Hi as <-. apply Qcle_refl.
  - eapply (SS_nth _ i (length os)); [exact H|lia|apply map_nth_error; exact Hi|].
    apply map_nth_error. apply nth_error_last.
Qed.

Lemma delayed_spec {S} inner L (s0 : S) st past sc full pov s' (o : simobs X F) : 0 <= L ->
  fed inner L s0 st past -> inner (dl_inner st) sc full pov = Ok (s', o) -> in_order (past ++ [o]) ->
  exists i r, nth_error (past ++ [o]) i = Some r /\
    delayed_sense inner L st sc full pov = Ok (mkDelayed s' (map (stamped L) (past ++ [o])), with_time r (o_time r + L)) /\
    o_time o - L <= o_time r /\ o_time r <= o_time o /\
    (forall j q, (j < i)%nat -> nth_error (past ++ [o]) j = Some q -> o_time q < o_time o - L).
Proof.
  intros HL Hf Hi Ho. pose proof (fed_hist _ _ _ _ _ Hf) as Hh.
  unfold delayed_sense. rewrite Hi. cbv zeta. rewrite Hh.
  assert (E : map (stamped L) past ++ [(o_time o + L, with_time o (o_time o + L))] = map (stamped L) (past ++ [o])).
  { rewrite map_app. reflexivity. }
  rewrite E. destruct (bisect_left_le _ (o_time o) (in_order_shift _ L Ho)) as (i & -> & Li & A & B).
  assert (Hlen : (i < length (past ++ [o]))%nat).
  { destruct (Nat.lt_ge_cases i (length (past ++ [o]))) as [H|H]; [exact H|exfalso].
    assert (C : o_time o + L < o_time o).
    { apply (A (length past)); [rewrite app_length in H; cbn in H; lia|]. rewrite map_map. cbn [fst].
      rewrite map_app. cbn [map]. replace (length past) with (length (map (fun x => o_time x + L) past)) by apply map_length.
      apply nth_error_last. }
    qlra. }
  destruct (nth_error (past ++ [o]) i) as [r|] eqn:Er; [|apply nth_error_None in Er; lia].
  exists i, r. rewrite (map_nth_error (stamped L) _ _ Er).
  split; [exact Er|]. split; [reflexivity|]. split; [|split].
  - assert (C : o_time o <= o_time r + L); [|qlra].
    apply (B i); [lia|]. rewrite map_map. cbn [fst]. apply (map_nth_error (fun x => o_time x + L) _ _ Er).
  - eapply in_order_last; [exact Ho|]. eapply nth_error_In; exact Er.
  - intros j q Hj Hq. assert (C : o_time q + L < o_time o); [|qlra].
    apply (A j); [exact Hj|]. rewrite map_map. cbn [fst]. apply (map_nth_error (fun x => o_time x + L) _ _ Hq).
Qed.

Lemma delayed_negative {S} inner L (s0 : S) st past sc full pov s' (o : simobs X F) : L < 0 ->
  fed inner L s0 st past -> inner (dl_inner st) sc full pov = Ok (s', o) -> in_order (past ++ [o]) ->
  delayed_sense inner L st sc full pov = Err PyIndexError.
Proof.
  intros HL Hf Hi Ho. pose proof (fed_hist _ _ _ _ _ Hf) as Hh.
  unfold delayed_sense. rewrite Hi. cbv zeta. rewrite Hh.
  assert (E : map (stamped L) past ++ [(o_time o + L, with_time o (o_time o + L))] = map (stamped L) (past ++ [o])).
  { rewrite map_app. reflexivity. }
  rewrite E. destruct (bisect_left_le _ (o_time o) (in_order_shift _ L Ho)) as (i & -> & Li & A & B).
  assert (N : nth_error (map (stamped L) (past ++ [o])) i = None).
  { destruct (nth_error _ i) as [y|] eqn:Ey; [exfalso|reflexivity].
    assert (Hl : o_time o <= fst y). { apply (B i); [lia|]. apply map_nth_error. exact Ey. }
    apply nth_error_In in Ey. apply in_map_iff in Ey as (q & <- & Hq). cbn in Hl.
    pose proof (in_order_last _ _ _ Ho Hq). qlra. }
  rewrite N. reflexivity.
Qed.

Lemma in_order_app_l (a b : list (simobs X F)) : in_order (a ++ b) -> in_order a.
Proof.
  unfold in_order. rewrite map_app. induction (map o_time a) as [|x l IH]; intro H; [constructor|].
  cbn in H. inversion H as [|? ? H1 H2]; subst. constructor; [auto|]. apply Forall_app in H2. tauto.
Qed.

Lemma delay_run {S} inner L (s0 : S) sc pov : 0 <= L -> forall ins st past s' (mids : list (simobs X F)),
  fed inner L s0 st past -> sense_all inner (dl_inner st) sc pov ins = Ok (s', mids) -> in_order (past ++ mids) ->
  exists st' outs, sense_all (delayed_sense inner L) st sc pov ins = Ok (st', outs) /\ dl_inner st' = s' /\
    length outs = length mids /\
    forall k (out now : simobs X F), nth_error outs k = Some out -> nth_error mids k = Some now ->
      exists i r, (i <= length past + k)%nat /\ nth_error (past ++ mids) i = Some r /\
      out = with_time r (o_time r + L) /\
      o_time now - L <= o_time r /\ o_time r <= o_time now /\
      (forall j q, (j < i)%nat -> nth_error (past ++ mids) j = Some q -> o_time q < o_time now - L).
Proof.
  intro HL. induction ins as [|o0 ins IH]; intros st past s' mids Hf H Ho; cbn [sense_all] in *.
  - injection H as <- <-. exists st, []. split; [reflexivity|]. split; [reflexivity|]. split; [reflexivity|].
    intros [|k] out now E; discriminate E.
  - destruct (inner (dl_inner st) sc o0 pov) as [[s1 o]|] eqn:E1; [|discriminate].
    destruct (sense_all inner s1 sc pov ins) as [[s2 ms]|] eqn:E2; [|discriminate]. injection H as <- <-.
    assert (Ha : past ++ o :: ms = (past ++ [o]) ++ ms) by (rewrite <- app_assoc; reflexivity).
    rewrite Ha in Ho. pose proof (in_order_app_l _ _ Ho) as Ho1.
    destruct (delayed_spec inner L s0 st past sc o0 pov s1 o HL Hf E1 Ho1) as (i & r & Hr & D & B1 & B2 & B3).
    pose proof (fed_sense inner L s0 _ _ _ _ _ _ _ _ _ Hf D E1) as Hf1.
    destruct (IH _ _ _ _ Hf1 E2 Ho) as (st' & outs & R1 & R2 & R3 & R4).
    rewrite D. rewrite R1. exists st', (with_time r (o_time r + L) :: outs).
    split; [reflexivity|]. split; [exact R2|]. split; [cbn; congruence|].
    intros [|k] out now Ek En; cbn [nth_error] in Ek, En.
    + injection Ek as <-. injection En as <-. exists i, r.
      assert (Li : (i < length (past ++ [o]))%nat) by (apply nth_error_Some; congruence).
      pose proof Li as Li'. rewrite app_length in Li'; cbn in Li'.
      split; [lia|]. split; [rewrite Ha, nth_error_app1 by exact Li; exact Hr|]. split; [reflexivity|].
      split; [exact B1|]. split; [exact B2|]. intros j q Hj Hq. apply (B3 j); [exact Hj|].
      rewrite Ha, nth_error_app1 in Hq by lia. exact Hq.
    + destruct (R4 k out now Ek En) as (i' & r' & C1 & C2 & C3). exists i', r'. rewrite Ha.
      split; [rewrite app_length in C1; cbn in C1; lia|]. split; [exact C2|exact C3].
Qed.

Lemma delays_run {S} inner L (s0 : S) sc pov ins s' (mids : list (simobs X F)) : 0 <= L ->
  sense_all inner s0 sc pov ins = Ok (s', mids) -> in_order mids ->
  exists st' outs, sense_all (delayed_sense inner L) (mkDelayed s0 []) sc pov ins = Ok (st', outs) /\ delays L mids outs.
Proof.
  intros HL H Ho.
  destruct (delay_run inner L s0 sc pov HL ins (mkDelayed s0 []) [] s' mids (fed_new _ _ _) H Ho) as (st' & outs & A & B & C & D).
  exists st', outs. split; [exact A|]. split; [exact C|]. intros k out now Hk Hn.
  destruct (D k out now Hk Hn) as (i & r & E1 & E2 & E3 & E4 & E5 & E6). exists i, r. cbn [length app] in *.
  split; [lia|]. auto.
Qed.

Lemma id_run (sc : list F) pov (ins : list (simobs X F)) : sense_all id_sense tt sc pov ins = Ok (tt, ins).
Proof. induction ins as [|o r IH]; cbn [sense_all id_sense]; [reflexivity|]. rewrite IH. reflexivity. Qed.

Lemma nth_order (os : list (simobs X F)) :
  (forall i j a b, (i < j)%nat -> nth_error os i = Some a -> nth_error os j = Some b -> o_time a <= o_time b) -> in_order os.
Proof.
  unfold in_order. induction os as [|o r IH]; intro H; cbn [map]; constructor.
  - apply IH. intros i j a b L A B. apply (H (Datatypes.S i) (Datatypes.S j)); [lia|exact A|exact B].
  - rewrite Forall_map. apply Forall_forall. intros q Hq. apply In_nth_error in Hq as [j Hj].
    apply (H 0%nat (Datatypes.S j)); [lia|reflexivity|exact Hj].
Qed.

Lemma sampled_order dt (ins : list (simobs X F)) : 0 < dt -> sampled_every dt ins -> in_order ins.
Proof.
  intros P0 H. apply nth_order. intros i j a b L A B. rewrite (H _ _ A), (H _ _ B).
  assert (Hq : qn i <= qn j) by (apply qn_le; lia). qnra.
Qed.

(** On a regular grid a delay of [n] steps answers sample [k - n] (natural
    subtraction) stamped [(k - n) + n] steps, whenever the inputs are
    themselves a delayed grid. *)
Definition grid_delay (dt : Qc) (n : nat) (ins outs : list (simobs X F)) : Prop :=
  length outs = length ins /\
  forall k out, nth_error outs k = Some out -> exists r, nth_error ins (k - n) = Some r /\
    out = mkObs (o_players r) (qn (k - n + n) * dt).

Lemma grid_lt dt a b : 0 < dt -> (qn a * dt < qn b * dt <-> (a < b)%nat).
Proof.
  intro P0. split; intro H.
  - apply qn_lt. apply Qcnot_le_lt. intro C. qnra.
  - apply qn_lt in H. qnra.
Qed.

Lemma grid_mids dt n (ins mids : list (simobs X F)) : 0 < dt -> grid_delay dt n ins mids -> in_order mids.
Proof.
  intros P0 [_ H]. apply nth_order. intros i j a b L A B.
  destruct (H _ _ A) as (ra & _ & ->). destruct (H _ _ B) as (rb & _ & ->). cbn [o_time].
  assert (Hq : qn (i - n + n) <= qn (j - n + n)) by (apply qn_le; lia). qnra.
Qed.

Lemma grid_stack dt n1 n2 (ins mids outs : list (simobs X F)) : 0 < dt -> grid_delay dt n1 ins mids -> delays (qn n2 * dt) mids outs ->
  grid_delay dt (n1 + n2) ins outs.
Proof.
  intros P0 [L1 H1] [L2 H2]. split; [congruence|]. intros k out Hk.
  destruct (nth_error mids k) as [now|] eqn:En.
  2:{ apply nth_error_None in En. apply nth_error_Some_lt in Hk. lia. }
  destruct (H2 k out now Hk En) as (i & r & Li & Hr & -> & B1 & _ & B3).
  destruct (H1 _ _ En) as (rn & _ & Enow). destruct (H1 _ _ Hr) as (ri & Hri & Er).
  assert (G : (k - n1 + n1 <= i - n1 + n1 + n2)%nat).
  { apply Nat.nlt_ge. intro C. apply (grid_lt dt _ _ P0) in C. rewrite qn_add in C.
    rewrite Enow, Er in B1. cbn [o_time] in B1. qnra. }
  assert (M : (i = 0 \/ i - 1 - n1 + n1 + n2 < k - n1 + n1)%nat).
  { destruct i as [|i]; [left; reflexivity|right]. destruct (nth_error mids i) as [q|] eqn:Eq.
    2:{ apply nth_error_None in Eq. apply nth_error_Some_lt in Hr. lia. }
    specialize (B3 i q ltac:(lia) Eq). destruct (H1 _ _ Eq) as (rq & _ & Eqq).
    rewrite Eqq, Enow in B3. cbn [o_time] in B3. apply (grid_lt dt _ _ P0). rewrite qn_add.
    replace (Datatypes.S i - 1)%nat with i by lia. qnra. }
  assert (I : (i - n1 = k - (n1 + n2))%nat) by lia.
  exists ri. split; [rewrite <- I; exact Hri|]. rewrite Er. cbn [o_players o_time]. f_equal.
  replace (k - (n1 + n2) + (n1 + n2))%nat with (i - n1 + n1 + n2)%nat by lia. rewrite (qn_add _ n2). ring.
Qed.

Lemma grid_base dt ins : sampled_every dt ins -> grid_delay dt 0 ins ins.
Proof.
  intro H. split; [reflexivity|]. intros k out Hk. exists out. rewrite Nat.sub_0_r, Nat.add_0_r. split; [exact Hk|].
  rewrite <- (H _ _ Hk). destruct out; reflexivity.
Qed.

Lemma grid_det dt n ins a b : grid_delay dt n ins a -> grid_delay dt n ins b -> a = b.
Proof.
  intros [La Ha] [Lb Hb]. assert (L : length a = length b) by congruence. clear La Lb.
  assert (H : forall k x y, nth_error a k = Some x -> nth_error b k = Some y -> x = y).
  { intros k x y Hx Hy. destruct (Ha _ _ Hx) as (r & R & ->). destruct (Hb _ _ Hy) as (r' & R' & ->). congruence. }
  clear Ha Hb. revert b L H. induction a as [|x a IH]; intros [|y b] L H; try discriminate; [reflexivity|].
  f_equal; [apply (H 0%nat); reflexivity|]. apply IH; [cbn in L; congruence|].
  intros k u v. apply (H (Datatypes.S k)).
Qed.

(** ** Field of view *)
Lemma others_keys {V} pov (ps : list (player * V)) p : In p (map fst (others pov ps)) <-> In p (map fst ps) /\ p <> pov.
Proof.
  unfold others. rewrite !in_map_iff. split.
  - intros (e & <- & H). apply filter_In in H as [H N]. split; [exists e; auto|].
    apply negb_true_iff, Nat.eqb_neq in N. exact N.
  - intros ((e & <- & H) & N). exists e. split; [reflexivity|]. apply filter_In. split; [exact H|].
    apply negb_true_iff, Nat.eqb_neq. exact N.
Qed.

Lemma others_NoDup {V} pov (ps : list (player * V)) : NoDup (map fst ps) -> NoDup (map fst (others pov ps)).
Proof.
  unfold others. induction ps as [|e r IH]; cbn [filter map]; intro N; [constructor|].
  inversion N as [|? ? N1 N2]; subst. destruct (negb (Nat.eqb (fst e) pov)); [|auto]. cbn [map]. constructor; [|auto].
  intro H. apply N1. apply in_map_iff in H as (e' & E' & H). apply filter_In in H as [H _].
  rewrite <- E'. apply in_map. exact H.
Qed.

Lemma others_get {V} pov (ps : list (player * V)) p : p <> pov -> dget (others pov ps) p = dget ps p.
Proof.
  intro N. unfold others. induction ps as [|[k v] r IH]; cbn [filter]; [reflexivity|].
  cbn [fst]. destruct (Nat.eqb_spec k pov) as [->|Nk]; cbn [negb].
  - rewrite dget_cons. destruct (Nat.eqb_spec pov p) as [->|]; [congruence|exact IH].
  - rewrite !dget_cons, IH. reflexivity.
Qed.

Lemma In_dget {V} (d : list (player * V)) p v : NoDup (map fst d) -> In (p, v) d -> dget d p = Some v.
Proof.
  induction d as [|[k w] r IH]; cbn [map fst In]; intros N H; [contradiction|].
  inversion N as [|? ? N1 N2]; subst. rewrite dget_cons. destruct H as [[= -> ->]|H].
  - rewrite Nat.eqb_refl. reflexivity.
  - destruct (Nat.eqb_spec k p) as [->|]; [exfalso; apply N1; apply (in_map fst) in H; exact H|auto].
Qed.

Definition entry_of (r : F) (p : player) (v : X * F) (acc : list (player * (X * F))) : Prop :=
  exists o' b, visible g r (snd v) o' b /\ dget acc p = if b then Some (fst v, o') else None.

Lemma fov_body_ok r0 r acc p x occ r' acc' :
  region_of g r0 r -> dget acc p = None ->
  fov_body g (r, acc) (p, (x, occ)) = Ok (r', acc') ->
  region_of g r0 r' /\ entry_of r p (x, occ) acc' /\ (forall q, q <> p -> dget acc' q = dget acc q) /\
  (forall q, In q (akeys acc') -> q = p \/ In q (akeys acc)) /\ (NoDup (akeys acc) -> NoDup (akeys acc')).
Proof.
  intros HR HN H. unfold fov_body in H. destruct (hits g r occ) as [b|e] eqn:Eh.
  - injection H as <- <-. split; [exact HR|]. split; [|split].
    + exists occ, b. cbn [fst snd]. split; [left; auto|]. destruct b; [apply dget_dset_same|exact HN].
    + intros q Hq. destruct b; [apply dget_dset_other; auto|reflexivity].
    + split; [intros q Hq; destruct b; [apply In_keys_dset in Hq|]; tauto|].
      intro N. destruct b; [apply NoDup_dset; exact N|exact N].
  - destruct (if valid g r then Ok r else repair g r) as [r1|] eqn:E1; [|discriminate].
    destruct (if valid g occ then Ok occ else repair g occ) as [o1|] eqn:E2; [|discriminate].
    destruct (hits g r1 o1) as [b|] eqn:E3; [|discriminate]. injection H as <- <-.
    assert (R1 : repaired g r r1). { unfold repaired. destruct (valid g r); [congruence|exact E1]. }
    assert (O1 : repaired g occ o1). { unfold repaired. destruct (valid g occ); [congruence|exact E2]. }
    split; [|split; [|split]].
    + destruct (valid g r) eqn:V; [injection E1 as <-; exact HR|]. eapply ro_repair; [exact HR|exact Eh|exact V|exact E1].
    + exists o1, b. cbn [fst snd]. split; [right; exists e, r1; auto|]. destruct b; [apply dget_dset_same|exact HN].
    + intros q Hq. destruct b; [apply dget_dset_other; auto|reflexivity].
    + split; [intros q Hq; destruct b; [apply In_keys_dset in Hq|]; tauto|].
      intro N. destruct b; [apply NoDup_dset; exact N|exact N].
Qed.

Lemma fov_loop r0 :
  forall l r acc r' acc', region_of g r0 r -> NoDup (map fst l) -> (forall p, In p (map fst l) -> dget acc p = None) ->
  NoDup (akeys acc) ->
  rfold (fov_body g) (r, acc) l = Ok (r', acc') ->
  (forall p v, In (p, v) l -> exists r1, region_of g r0 r1 /\ entry_of r1 p v acc') /\
  (forall q, ~ In q (map fst l) -> dget acc' q = dget acc q) /\ NoDup (akeys acc').
Proof.
  induction l as [|[p v] l IH]; intros r acc r' acc' HR N HN NA H; cbn [rfold] in H.
  - injection H as <- <-. split; [intros p v []|]. split; [reflexivity|exact NA].
  - destruct (fov_body g (r, acc) (p, v)) as [[r1 acc1]|] eqn:E; [|discriminate].
    cbn [map fst] in N. inversion N as [|? ? N1 N2]; subst. destruct v as [x occ].
    destruct (fov_body_ok r0 r acc p x occ r1 acc1 HR (HN p (or_introl eq_refl)) E) as (A & B & C & _ & D).
    destruct (IH r1 acc1 r' acc' A N2) as (I1 & I2 & I3); [|exact (D NA)|exact H|].
    { intros q Hq. rewrite C; [apply HN; right; exact Hq|]. intros ->. contradiction. }
    split; [|split; [|exact I3]].
    + intros q w [[= <- <-]|Hq]; [|eapply I1; exact Hq]. exists r. split; [exact HR|].
      destruct B as (o' & b & B1 & B2). exists o', b. split; [exact B1|]. rewrite I2; [exact B2|exact N1].
    + intros q Hq. cbn [map fst In] in Hq. rewrite I2; [|tauto]. apply C. intros ->. tauto.
Qed.

Lemma rmapM_F2 {A B} (f : A -> result B) l ys : rmapM f l = Ok ys -> Forall2 (fun x y => f x = Ok y) l ys.
Proof. apply rmapM_Ok. Qed.

Lemma Forall2_map_l {A B C} (h : A -> B) (R : B -> C -> Prop) l ys :
  Forall2 (fun x y => R (h x) y) l ys -> Forall2 R (map h l) ys.
Proof. induction 1; cbn; constructor; auto. Qed.

Lemma cache_ok sc st : used_with g sc st -> fv_cache st = [] \/ polys_of g sc (fv_cache st).
Proof.
  induction 1 as [|st o pov st' o' H IH E]; [left; reflexivity|]. right.
  unfold fov_sense in E. destruct (dgetE (o_players o) pov) as [me|]; [|discriminate].
  destruct (pose_of g (fst me)) as [z|]; [|discriminate].
  destruct (fv_cache st) as [|c cs] eqn:Ec.
  - destruct (rmapM (to_cr g) sc) as [ls|] eqn:Er; [|discriminate].
    destruct (rmapM _ (others pov _)); [|discriminate]. destruct (fov g z _); [|discriminate].
    destruct (rfold _ _ _) as [[? ?]|]; [|discriminate]. injection E as <- <-. cbn [fv_cache].
    exists ls. split; [apply rmapM_Ok; exact Er|apply interleave_perm].
  - destruct (rmapM _ (others pov _)); [|discriminate]. destruct (fov g z _); [|discriminate].
    destruct (rfold _ _ _) as [[? ?]|]; [|discriminate]. injection E as <- <-. cbn [fv_cache].
    destruct IH as [IH|IH]; [discriminate|exact IH].
Qed.

Lemma fov_sense_spec st sc o pov st' out : proper o ->
  fov_sense g st sc o pov = Ok (st', out) ->
  exists me z static dyn region, sees o pov = Some me /\ pose_of g (fst me) = Ok z /\
    (fv_cache st = [] -> polys_of g sc static) /\ (fv_cache st <> [] -> static = fv_cache st) /\ fv_cache st' = static /\
    polys_of g (map (fun e => snd (snd e)) (others pov (o_players o))) dyn /\
    fov g z (static ++ dyn) = Ok region /\
    o_time out = o_time o /\ sees out pov = Some me /\ proper out /\
    (forall p v, p <> pov -> sees o p = Some v ->
       exists r, region_of g region r /\ exists o' b, visible g r (snd v) o' b /\ sees out p = if b then Some (fst v, o') else None) /\
    (forall p, sees o p = None -> sees out p = None).
Proof.
  intros N E. unfold fov_sense in E.
  destruct (dgetE (o_players o) pov) as [me|] eqn:Eme; [|discriminate]. apply agetE_Ok in Eme.
  destruct (pose_of g (fst me)) as [z|] eqn:Ez; [|discriminate].
  destruct (match fv_cache st with [] => _ | _ :: _ => _ end) as [static|] eqn:Es; [|discriminate].
  destruct (rmapM _ (others pov _)) as [ls|] eqn:El; [|discriminate].
  destruct (fov g z _) as [region|] eqn:Ef; [|discriminate].
  destruct (rfold _ _ _) as [[r' ps]|] eqn:Er; [|discriminate]. injection E as <- <-.
  exists me, z, static, (interleave ls), region.
  assert (NA : NoDup (akeys [(pov, me)])) by (unfold akeys; cbn [map fst]; constructor; [intros []|constructor]).
  assert (HN : forall p, In p (map fst (others pov (o_players o))) -> dget [(pov, me)] p = None).
  { intros p Hp. apply others_keys in Hp as [_ Hn]. rewrite dget_cons.
    destruct (Nat.eqb_spec pov p) as [->|_]; [exfalso; apply Hn; reflexivity|reflexivity]. }
  destruct (fov_loop region _ _ _ _ _ (ro_same g region) (others_NoDup pov _ N) HN NA Er) as (A & B & C).
  split; [exact Eme|]. split; [exact Ez|]. split; [|split; [|split; [|split; [|split; [|split; [|split; [|split; [|split]]]]]]]].
  - intro Hc. rewrite Hc in Es. destruct (rmapM (to_cr g) sc) as [l0|] eqn:E0; [|discriminate]. injection Es as <-.
    exists l0. split; [apply rmapM_Ok; exact E0|apply interleave_perm].
  - intro Hc. destruct (fv_cache st); [congruence|]. congruence.
  - reflexivity.
  - exists ls. split; [|apply interleave_perm]. apply Forall2_map_l. apply rmapM_Ok. exact El.
  - exact Ef.
  - reflexivity.
  - unfold sees; cbn [with_players o_players]. rewrite B; [rewrite dget_cons, Nat.eqb_refl; reflexivity|].
    intro H. apply others_keys in H. tauto.
  - exact C.
  - intros p v Hp Hv. unfold sees in Hv. rewrite <- (others_get pov _ _ Hp) in Hv.
    assert (I : In (p, v) (others pov (o_players o))).
    { clear -Hv. induction (others pov (o_players o)) as [|[k w] l IH]; [discriminate|].
      rewrite dget_cons in Hv. destruct (Nat.eqb_spec k p) as [->|]; [injection Hv as ->; left; reflexivity|right; auto]. }
    destruct (A _ _ I) as (r1 & R1 & o' & b & V & G). exists r1. split; [exact R1|]. exists o', b. split; [exact V|exact G].
  - intros p Hp. unfold sees in *. cbn [with_players o_players].
    assert (Hq : p <> pov) by (intros ->; congruence).
    rewrite B; [rewrite dget_cons; destruct (Nat.eqb_spec pov p); [congruence|reflexivity]|].
    intro H. apply others_keys in H as [H _]. apply dget_None in Hp. exact (Hp H).
Qed.

(** ** Ghost filter *)
Lemma further_iff a b d : further a b d = true <->
  d < 0 \/ d * d < (fst a - fst b) * (fst a - fst b) + (snd a - snd b) * (snd a - snd b).
Proof. unfold further. cbv zeta. rewrite orb_true_iff, !qltb_lt. tauto. Qed.
End S.

Lemma qsq_nonneg (a : Qc) : 0 <= a * a.
Proof. destruct (Qclt_le_dec a 0); qnra. Qed.
Lemma qsq_pos (a : Qc) : a <> 0 -> 0 < a * a.
Proof. intro H. destruct (Qc_dec a 0) as [[L|L]|L]; [qnra|qnra|contradiction]. Qed.
