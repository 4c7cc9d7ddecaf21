(** Lemmas about SeqModel. *)
From Coq Require Import QArith Qcanon ZArith List Bool Arith Lia Sorted.
From Verif Require Import Base Num SeqModel SeqSpec.
Import ListNotations.
Open Scope Qc_scope.

Notation Inc := (StronglySorted Qclt).

(** ** Sortedness *)
Lemma sub_pos a b : qleb (b - a) 0 = false <-> a < b.
Proof.
  rewrite qleb_gt. split; intro H; qlra.
Qed.

Lemma Inc_cons2 a b r : Inc (a :: b :: r) <-> a < b /\ Inc (b :: r).
Proof.
  split.
  - intro H; inversion H as [|? ? H1 H2]; subst. split; [|assumption].
    inversion H2; assumption.
  - intros [H1 H2]. constructor; [assumption|]. constructor; [assumption|].
    inversion H2 as [|? ? H3 H4]; subst.
    eapply Forall_impl; [|exact H4]. intros c Hc; cbn in Hc. eapply Qclt_trans; eassumption.
Qed.

Lemma steps_ok_iff ts : steps_ok ts = true <-> Inc ts.
Proof.
  induction ts as [|a r IH]; [split; [constructor|reflexivity]|].
  destruct r as [|b r].
  - split; [intros _; repeat constructor|reflexivity].
  - rewrite Inc_cons2. cbn [steps_ok]. rewrite andb_true_iff, negb_true_iff, sub_pos.
    rewrite <- IH. reflexivity.
Qed.

Lemma new_seq_ok {X} ty ts (vs : list X) :
  length ts = length vs -> Inc ts -> new_seq ty ts vs = Ok (mkSeq ts vs ty).
Proof.
  intros H1 H2. unfold new_seq. apply steps_ok_iff in H2. rewrite H2, H1, Nat.eqb_refl. reflexivity.
Qed.

Lemma new_seq_inv {X} ty ts (vs : list X) s :
  new_seq ty ts vs = Ok s ->
  length ts = length vs /\ Inc ts /\ s = mkSeq ts vs ty.
Proof.
  unfold new_seq. destruct (Nat.eqb_spec (length ts) (length vs)) as [H1|H1]; cbn; [|discriminate].
  destruct (steps_ok ts) eqn:H2; [|discriminate]. intro H; injection H as <-.
  apply steps_ok_iff in H2. auto.
Qed.

Lemma new_seq_err {X} ty ts (vs : list X) e : new_seq ty ts vs = Err e -> e = ZValueError.
Proof.
  unfold new_seq. destruct (negb _); [congruence|]. destruct (steps_ok ts); congruence.
Qed.

Lemma Inc_nth ts : Inc ts -> forall i j a b,
  (i < j)%nat -> nth_error ts i = Some a -> nth_error ts j = Some b -> a < b.
Proof.
  induction 1 as [|x r H IH Hall]; intros i j a b Hij Hi Hj.
  - destruct i; discriminate.
  - destruct j as [|j]; [lia|]. destruct i as [|i]; cbn in *.
    + injection Hi as <-. rewrite Forall_forall in Hall. apply Hall.
      eapply nth_error_In; eassumption.
    + eapply (IH i j); [lia|eassumption..].
Qed.

Lemma Inc_nth_inv ts :
  (forall i j a b, (i < j)%nat -> nth_error ts i = Some a -> nth_error ts j = Some b -> a < b) ->
  Inc ts.
Proof.
  induction ts as [|x r IH]; intro H; constructor.
  - apply IH. intros i j a b Hij Hi Hj. exact (H (S i) (S j) a b ltac:(lia) Hi Hj).
  - rewrite Forall_forall. intros y Hy. apply In_nth_error in Hy as [j Hj].
    exact (H O (S j) x y ltac:(lia) eq_refl Hj).
Qed.

Lemma Inc_inj ts i j a : Inc ts -> nth_error ts i = Some a -> nth_error ts j = Some a -> i = j.
Proof.
  intros H Hi Hj. destruct (Nat.lt_trichotomy i j) as [L|[L|L]]; [exfalso| exact L |exfalso].
  - pose proof (Inc_nth _ H _ _ _ _ L Hi Hj) as C. exact (Qclt_not_eq _ _ C eq_refl).
  - pose proof (Inc_nth _ H _ _ _ _ L Hj Hi) as C. exact (Qclt_not_eq _ _ C eq_refl).
Qed.

Lemma Inc_app ts us : Inc ts -> Inc us ->
  (forall a b, In a ts -> In b us -> a < b) -> Inc (ts ++ us).
Proof.
  induction 1 as [|x r H IH Hall]; intros Hu Hlt; cbn; [exact Hu|].
  constructor.
  - apply IH; [exact Hu|]. intros; apply Hlt; [right|]; assumption.
  - rewrite Forall_app. split; [exact Hall|]. rewrite Forall_forall. intros b Hb.
    apply Hlt; [left; reflexivity|exact Hb].
Qed.

Lemma Inc_app_inv ts us : Inc (ts ++ us) ->
  Inc ts /\ Inc us /\ (forall a b, In a ts -> In b us -> a < b).
Proof.
  induction ts as [|x r IH]; cbn; intro H.
  - split; [constructor|]. split; [exact H|]. intros a b [].
  - inversion H as [|? ? H1 H2]; subst. destruct (IH H1) as (Ha & Hb & Hc).
    rewrite Forall_app in H2. destruct H2 as [H2 H3].
    split; [constructor; assumption|]. split; [assumption|].
    intros a b [<-|Hi] Hu; [|apply Hc; assumption].
    rewrite Forall_forall in H3. apply H3; assumption.
Qed.

Lemma Inc_NoDup ts : Inc ts -> NoDup ts.
Proof.
  induction 1 as [|x r H IH Hall]; constructor; [|exact IH].
  intro C. rewrite Forall_forall in Hall. specialize (Hall _ C).
  exact (Qclt_not_eq _ _ Hall eq_refl).
Qed.

Lemma Inc_filter (f : Qc -> bool) ts : Inc ts -> Inc (filter f ts).
Proof.
  induction 1 as [|x r H IH Hall]; cbn; [constructor|]. destruct (f x); [|exact IH].
  constructor; [exact IH|]. rewrite Forall_forall in *. intros y Hy.
  apply filter_In in Hy as [Hy _]. apply Hall; exact Hy.
Qed.

(** ** Lookup *)
Lemma index_of_some ts t i : index_of ts t = Some i -> nth_error ts i = Some t.
Proof.
  revert i; induction ts as [|a r IH]; intros i; cbn; [discriminate|].
  destruct (qeqb_spec a t) as [E|E].
  - intro H; injection H as <-. cbn; congruence.
  - destruct (index_of r t) as [k|]; [|discriminate].
    intro H; injection H as <-. cbn. apply IH; reflexivity.
Qed.

Lemma index_of_none ts t : index_of ts t = None <-> ~ In t ts.
Proof.
  induction ts as [|a r IH]; cbn; [tauto|].
  destruct (qeqb_spec a t) as [E|E].
  - split; [discriminate|intro H; exfalso; apply H; left; exact E].
  - destruct (index_of r t) as [k|].
    + split; [discriminate|]. intro H. exfalso. destruct IH as [_ IH].
      discriminate IH. intro C; apply H; right; exact C.
    + split; [|reflexivity]. intros _ [C|C]; [contradiction|]. apply IH; [reflexivity|exact C].
Qed.

Lemma nth_error_same_len {A B} (l : list A) (m : list B) i a :
  length l = length m -> nth_error l i = Some a -> exists b, nth_error m i = Some b.
Proof.
  intros H Hi. destruct (nth_error m i) as [b|] eqn:E; [eauto|].
  apply nth_error_None in E. assert (i < length l)%nat by (apply nth_error_Some; congruence). lia.
Qed.

Definition WF {X} (s : seq X) : Prop := length (tss s) = length (vals s) /\ Inc (tss s).

Lemma new_seq_WF {X} ty ts (vs : list X) s : new_seq ty ts vs = Ok s -> WF s.
Proof. intro H. apply new_seq_inv in H as (H1 & H2 & ->). split; assumption. Qed.

Lemma at_some {X} (s : seq X) t v : WF s ->
  at_ s t = Ok v <-> exists i, nth_error (tss s) i = Some t /\ nth_error (vals s) i = Some v.
Proof.
  intros [Hl Hi]. unfold at_, item. split.
  - destruct (index_of (tss s) t) as [i|] eqn:E; [|discriminate].
    apply index_of_some in E. destruct (nth_error (vals s) i) as [w|] eqn:F; [|discriminate].
    intro H; injection H as ->. eauto.
  - intros (i & H1 & H2). destruct (index_of (tss s) t) as [k|] eqn:E.
    + apply index_of_some in E. pose proof (Inc_inj _ _ _ _ Hi E H1) as ->. rewrite H2; reflexivity.
    + apply index_of_none in E. exfalso; apply E. eapply nth_error_In; eassumption.
Qed.

Lemma at_err {X} (s : seq X) t : WF s -> ~ In t (tss s) <-> at_ s t = Err UndefinedAtTime.
Proof.
  intros [Hl Hi]. unfold at_, item. split.
  - intro H. apply index_of_none in H. rewrite H; reflexivity.
  - destruct (index_of (tss s) t) as [k|] eqn:E.
    + destruct (nth_error (vals s) k); discriminate.
    + intros _. apply index_of_none; exact E.
Qed.

(** ** bisect *)
Lemma nth_error_nth_Qc (a : list Qc) i d : (i < length a)%nat -> nth_error a i = Some (nth i a d).
Proof. intro H. apply nth_error_nth'; exact H. Qed.

Lemma bisect_right_loop_spec a x : Inc a -> forall fuel lo hi,
  (lo <= hi)%nat -> (hi <= length a)%nat -> (hi - lo <= fuel)%nat ->
  (forall j y, (j < lo)%nat -> nth_error a j = Some y -> y <= x) ->
  (forall j y, (hi <= j)%nat -> nth_error a j = Some y -> x < y) ->
  exists i, bisect_right_loop fuel a x lo hi = Some i /\ (i <= length a)%nat /\
    (forall j y, (j < i)%nat -> nth_error a j = Some y -> y <= x) /\
    (forall j y, (i <= j)%nat -> nth_error a j = Some y -> x < y).
Proof.
  intros Ha fuel. induction fuel as [|f IH]; intros lo hi H1 H2 H3 HL HR; cbn [bisect_right_loop].
  - destruct (Nat.ltb_spec lo hi); [lia|]. exists lo.
    refine (conj eq_refl (conj _ (conj HL _))); [lia|intros j y Hj; apply HR; lia].
  - destruct (Nat.ltb_spec lo hi) as [L|L].
    2:{ exists lo.
        refine (conj eq_refl (conj _ (conj HL _))); [lia|intros j y Hj; apply HR; lia]. }
    set (mid := ((lo + hi) / 2)%nat) in *. cbv zeta.
    assert (Hm : (lo <= mid < hi)%nat).
    { unfold mid. split; [apply Nat.div_le_lower_bound; lia|apply Nat.div_lt_upper_bound; lia]. }
    pose proof (nth_error_nth_Qc a mid 0 ltac:(lia)) as Hn.
    destruct (qltb_spec x (nth mid a 0)) as [C|C].
    + apply IH; try lia; try assumption.
      intros j y Hj Hy. destruct (Nat.eq_dec j mid) as [->|E].
      * rewrite Hn in Hy; injection Hy as <-; exact C.
      * eapply Qclt_trans; [exact C|]. eapply Inc_nth; [exact Ha| |exact Hn|exact Hy]. lia.
    + apply IH; try lia; try assumption.
      intros j y Hj Hy. destruct (Nat.eq_dec j mid) as [->|E].
      * rewrite Hn in Hy; injection Hy as <-; exact C.
      * apply Qclt_le_weak. eapply Qclt_le_trans; [|exact C].
        eapply Inc_nth; [exact Ha| |exact Hy|exact Hn]. lia.
Qed.

Lemma bisect_right_spec a x : Inc a ->
  exists i, bisect_right a x = Some i /\ (i <= length a)%nat /\
    (forall j y, (j < i)%nat -> nth_error a j = Some y -> y <= x) /\
    (forall j y, (i <= j)%nat -> nth_error a j = Some y -> x < y).
Proof.
  intro Ha. unfold bisect_right. apply bisect_right_loop_spec; try assumption; try lia.
  intros j y Hj Hy. exfalso. apply nth_error_None in Hj. congruence.
Qed.

Lemma bisect_left_loop_spec a x : Inc a -> forall fuel lo hi,
  (lo <= hi)%nat -> (hi <= length a)%nat -> (hi - lo <= fuel)%nat ->
  (forall j y, (j < lo)%nat -> nth_error a j = Some y -> y < x) ->
  (forall j y, (hi <= j)%nat -> nth_error a j = Some y -> x <= y) ->
  exists i, bisect_left_loop fuel a x lo hi = Some i /\ (i <= length a)%nat /\
    (forall j y, (j < i)%nat -> nth_error a j = Some y -> y < x) /\
    (forall j y, (i <= j)%nat -> nth_error a j = Some y -> x <= y).
Proof.
  intros Ha fuel. induction fuel as [|f IH]; intros lo hi H1 H2 H3 HL HR; cbn [bisect_left_loop].
  - destruct (Nat.ltb_spec lo hi); [lia|]. exists lo.
    refine (conj eq_refl (conj _ (conj HL _))); [lia|intros j y Hj; apply HR; lia].
  - destruct (Nat.ltb_spec lo hi) as [L|L].
    2:{ exists lo.
        refine (conj eq_refl (conj _ (conj HL _))); [lia|intros j y Hj; apply HR; lia]. }
    set (mid := ((lo + hi) / 2)%nat) in *. cbv zeta.
    assert (Hm : (lo <= mid < hi)%nat).
    { unfold mid. split; [apply Nat.div_le_lower_bound; lia|apply Nat.div_lt_upper_bound; lia]. }
    pose proof (nth_error_nth_Qc a mid 0 ltac:(lia)) as Hn.
    destruct (qltb_spec (nth mid a 0) x) as [C|C].
    + apply IH; try lia; try assumption.
      intros j y Hj Hy. destruct (Nat.eq_dec j mid) as [->|E].
      * rewrite Hn in Hy; injection Hy as <-; exact C.
      * eapply Qclt_trans; [|exact C]. eapply Inc_nth; [exact Ha| |exact Hy|exact Hn]. lia.
    + apply IH; try lia; try assumption.
      intros j y Hj Hy. destruct (Nat.eq_dec j mid) as [->|E].
      * rewrite Hn in Hy; injection Hy as <-; exact C.
      * apply Qclt_le_weak. eapply Qcle_lt_trans; [exact C|].
        eapply Inc_nth; [exact Ha| |exact Hn|exact Hy]. lia.
Qed.

Lemma bisect_left_spec a x : Inc a ->
  exists i, bisect_left a x = Some i /\ (i <= length a)%nat /\
    (forall j y, (j < i)%nat -> nth_error a j = Some y -> y < x) /\
    (forall j y, (i <= j)%nat -> nth_error a j = Some y -> x <= y).
Proof.
  intro Ha. unfold bisect_left. apply bisect_left_loop_spec; try assumption; try lia.
  intros j y Hj Hy. exfalso. apply nth_error_None in Hj. congruence.
Qed.

(** ** at_or_previous *)

Lemma Inc_le_nth ts i j a b : Inc ts -> nth_error ts i = Some a -> nth_error ts j = Some b ->
  (i <= j)%nat -> a <= b.
Proof.
  intros H Hi Hj L. destruct (Nat.eq_dec i j) as [->|N].
  - rewrite Hi in Hj; injection Hj as ->. apply Qcle_refl.
  - apply Qclt_le_weak. eapply Inc_nth; [exact H| |eassumption..]. lia.
Qed.

Lemma aop_spec {X} (s : seq X) t : WF s ->
  match tss s with
  | [] => at_or_previous s t = Err ZValueError
  | t0 :: _ => if qltb t t0 then at_or_previous s t = Err UndefinedAtTime
               else exists v, at_or_previous s t = Ok v /\ is_prev_sample s t v
  end.
Proof.
  intros W. pose proof W as [Hl Hi]. unfold at_or_previous, get_start.
  destruct (tss s) as [|t0 r] eqn:Et; [reflexivity|]. rewrite <- Et in *.
  destruct (qltb_spec t t0) as [C|C]; [reflexivity|].
  assert (H0 : nth_error (tss s) 0 = Some t0) by (rewrite Et; reflexivity).
  destruct (at_ s t) as [v|e] eqn:Ea.
  - exists v; split; [reflexivity|]. apply at_some in Ea as (i & H1 & H2); [|exact W].
    exists i, t. split; [exact H1|]. split; [exact H2|]. split; [apply Qcle_refl|].
    intros j tj Hj Hle. destruct (Nat.le_gt_cases j i) as [L|L]; [exact L|exfalso].
    pose proof (Inc_nth _ Hi _ _ _ _ L H1 Hj) as Hlt. exact (Qclt_not_le _ _ Hlt Hle).
  - assert (e = UndefinedAtTime) as ->.
    { unfold at_, item in Ea. destruct (index_of (tss s) t) as [k|] eqn:Ek; [|congruence].
      apply index_of_some in Ek. destruct (nth_error_same_len _ (vals s) _ _ Hl Ek) as [w Hw].
      rewrite Hw in Ea; discriminate. }
    destruct (bisect_right_spec (tss s) t Hi) as (i & -> & Hlen & HL & HR).
    destruct i as [|i].
    + exfalso. specialize (HR O t0 ltac:(lia) H0). exact (Qclt_not_le _ _ HR C).
    + cbn [item_pred]. unfold item.
      assert (Hti : exists ti, nth_error (tss s) i = Some ti).
      { destruct (nth_error (tss s) i) as [ti|] eqn:E; [eauto|].
        apply nth_error_None in E. lia. }
      destruct Hti as [ti Hti].
      destruct (nth_error_same_len _ (vals s) _ _ Hl Hti) as [w Hw]. rewrite Hw.
      exists w; split; [reflexivity|]. exists i, ti. refine (conj Hti (conj Hw (conj _ _))).
      * apply (HL i ti); [lia|exact Hti].
      * intros j tj Hj Hle. destruct (Nat.le_gt_cases j i) as [L|L]; [exact L|exfalso].
        specialize (HR j tj L Hj). exact (Qclt_not_le _ _ HR Hle).
Qed.

Lemma is_prev_sample_fun {X} (s : seq X) t v w :
  is_prev_sample s t v -> is_prev_sample s t w -> v = w.
Proof.
  intros (i & ti & A1 & A2 & A3 & A4) (j & tj & B1 & B2 & B3 & B4).
  assert (i = j) by (apply Nat.le_antisymm; [apply (B4 i ti)|apply (A4 j tj)]; assumption).
  subst j. congruence.
Qed.

Lemma aop_ok {X} (s : seq X) t v : WF s ->
  at_or_previous s t = Ok v <-> is_prev_sample s t v.
Proof.
  intro W. pose proof (aop_spec s t W) as H. split.
  - intro E. destruct (tss s) as [|t0 r]; [congruence|]. destruct (qltb t t0); [congruence|].
    destruct H as (w & H1 & H2). congruence.
  - intro E. pose proof E as (i & ti & A1 & A2 & A3 & A4).
    destruct (tss s) as [|t0 r] eqn:Et; [destruct i; discriminate|].
    destruct (qltb_spec t t0) as [C|C].
    + exfalso. destruct W as [_ Hi]. rewrite Et in Hi.
      assert (t0 <= ti). { eapply (Inc_le_nth (t0 :: r) 0 i); [exact Hi|reflexivity|exact A1|lia]. }
      apply (Qclt_not_le _ _ C). eapply Qcle_trans; eassumption.
    + destruct H as (w & H1 & H2). rewrite H1. f_equal. eapply is_prev_sample_fun; eassumption.
Qed.

(** ** Windows *)
Lemma slice_filter ts lo hi i j : Inc ts ->
  (i <= length ts)%nat -> (j <= length ts)%nat ->
  (forall k y, (k < i)%nat -> nth_error ts k = Some y -> y < lo) ->
  (forall k y, (i <= k)%nat -> nth_error ts k = Some y -> lo <= y) ->
  (forall k y, (k < j)%nat -> nth_error ts k = Some y -> y <= hi) ->
  (forall k y, (j <= k)%nat -> nth_error ts k = Some y -> hi < y) ->
  forall k y, nth_error ts k = Some y -> ((i <= k < j)%nat <-> lo <= y <= hi).
Proof.
  intros Hi Li Lj H1 H2 H3 H4 k y Hk. split.
  - intros [A B]. split; [eapply H2|eapply H3]; eassumption.
  - intros [A B]. split.
    + destruct (Nat.le_gt_cases i k); [assumption|exfalso].
      specialize (H1 k y H Hk). exact (Qclt_not_le _ _ H1 A).
    + destruct (Nat.le_gt_cases j k); [exfalso|assumption].
      specialize (H4 k y H Hk). exact (Qclt_not_le _ _ H4 B).
Qed.

Lemma slice_map {A B} (f : A -> B) i j l : slice i j (map f l) = map f (slice i j l).
Proof. unfold slice. rewrite skipn_map, firstn_map. reflexivity. Qed.

Lemma combine_firstn' {A B} n (l : list A) (m : list B) :
  combine (firstn n l) (firstn n m) = firstn n (combine l m).
Proof.
  revert l m; induction n as [|n IH]; intros [|a l] [|b m]; cbn; try reflexivity.
  f_equal; apply IH.
Qed.

Lemma combine_skipn' {A B} n (l : list A) (m : list B) :
  combine (skipn n l) (skipn n m) = skipn n (combine l m).
Proof.
  revert l m; induction n as [|n IH]; intros [|a l] [|b m]; cbn; try reflexivity.
  - destruct (skipn n l); reflexivity.
  - apply IH.
Qed.

Lemma combine_slice {A B} i j (l : list A) (m : list B) :
  combine (slice i j l) (slice i j m) = slice i j (combine l m).
Proof. unfold slice. rewrite combine_firstn', combine_skipn'; reflexivity. Qed.

Lemma slice_length {A} i j (l : list A) :
  length (slice i j l) = Nat.min (j - i) (length l - i).
Proof. unfold slice. rewrite firstn_length, skipn_length. reflexivity. Qed.

Lemma nth_error_combine {A B} (l : list A) (m : list B) k p :
  nth_error (combine l m) k = Some p <->
  nth_error l k = Some (fst p) /\ nth_error m k = Some (snd p).
Proof.
  revert m k; induction l as [|a l IH]; intros [|b m] [|k]; cbn.
  - split; [discriminate|intros [H _]; discriminate].
  - split; [discriminate|intros [H _]; discriminate].
  - split; [discriminate|intros [H _]; discriminate].
  - split; [discriminate|intros [H _]; discriminate].
  - split; [discriminate|intros [_ H]; discriminate].
  - split; [discriminate|intros [_ H]; discriminate].
  - destruct p as [x y]; cbn. split; [intro H; injection H as <- <-; auto|intros [[= ->] [= ->]]; reflexivity].
  - apply IH.
Qed.

(** A slice whose bounds delimit exactly the elements satisfying [P] is the
    filter. *)
Lemma slice_is_filter {A} (P : A -> bool) : forall l i j,
  (forall k y, nth_error l k = Some y -> ((i <= k < j)%nat <-> P y = true)) ->
  slice i j l = filter P l.
Proof.
  induction l as [|x r IH]; intros i j H.
  - unfold slice. rewrite skipn_nil, firstn_nil. reflexivity.
  - cbn [filter]. destruct i as [|i].
    + destruct j as [|j].
      * destruct (P x) eqn:E. { apply (H O x eq_refl) in E; lia. }
        unfold slice. cbn. rewrite <- (IH O O); [reflexivity|].
        intros k y Hk. specialize (H (S k) y Hk). rewrite <- H. lia.
      * destruct (P x) eqn:E.
        -- unfold slice in *. cbn [skipn]. rewrite Nat.sub_0_r. cbn [firstn]. f_equal.
           rewrite <- (IH O j); [cbn [skipn]; rewrite Nat.sub_0_r; reflexivity|].
           intros k y Hk. specialize (H (S k) y Hk). rewrite <- H. lia.
        -- exfalso. assert (P x = true) by (apply (H O x eq_refl); lia). congruence.
    + destruct (P x) eqn:E. { apply (H O x eq_refl) in E; lia. }
      rewrite <- (IH i (pred j)).
      * unfold slice. cbn [skipn]. destruct j; [cbn; reflexivity|]. cbn [Nat.sub pred]. reflexivity.
      * intros k y Hk. specialize (H (S k) y Hk). rewrite <- H. lia.
Qed.


Lemma subseq_spec {X} (s : seq X) a b : WF s -> a <= b ->
  exists s', get_subsequence s a b = Ok s' /\ WF s' /\ typed s' = true /\
    iter s' = filter (fun p => in_window a b (fst p)) (iter s) /\
    tss s' = filter (in_window a b) (tss s).
Proof.
  intros [Hl Hi] Hab. unfold get_subsequence. apply qleb_le in Hab. rewrite Hab.
  destruct (bisect_left_spec (tss s) a Hi) as (i & -> & Li & A1 & A2).
  destruct (bisect_right_spec (tss s) b Hi) as (j & -> & Lj & B1 & B2).
  assert (HT : slice i j (tss s) = filter (in_window a b) (tss s)).
  { apply slice_is_filter. intros k y Hk.
    rewrite (slice_filter (tss s) a b i j Hi Li Lj A1 A2 B1 B2 k y Hk).
    unfold in_window. rewrite andb_true_iff, !qleb_le. reflexivity. }
  assert (HI : Inc (slice i j (tss s))) by (rewrite HT; apply Inc_filter; exact Hi).
  assert (HL : length (slice i j (tss s)) = length (slice i j (vals s))).
  { rewrite !slice_length, Hl. reflexivity. }
  rewrite new_seq_ok; [|exact HL|exact HI].
  eexists; split; [reflexivity|]. split; [split; assumption|]. split; [reflexivity|].
  split; [|exact HT].
  unfold iter; cbn [tss vals]. rewrite combine_slice. apply slice_is_filter.
  intros k [y v] Hk. apply nth_error_combine in Hk as [Hk _]. cbn [fst] in *.
  rewrite (slice_filter (tss s) a b i j Hi Li Lj A1 A2 B1 B2 k y Hk).
  unfold in_window. rewrite andb_true_iff, !qleb_le. reflexivity.
Qed.

(** ** iter *)
Lemma iter_fst {X} (s : seq X) : WF s -> map fst (iter s) = tss s.
Proof.
  intros [Hl _]. unfold iter. revert Hl. generalize (vals s). induction (tss s) as [|t r IH]; intros [|v vs] H; cbn in *; try discriminate; [reflexivity|].
  f_equal. apply IH. lia.
Qed.
Lemma iter_snd {X} (s : seq X) : WF s -> map snd (iter s) = vals s.
Proof.
  intros [Hl _]. unfold iter. revert Hl. generalize (vals s). induction (tss s) as [|t r IH]; intros [|v vs] H; cbn in *; try discriminate; [reflexivity|].
  f_equal. apply IH. lia.
Qed.

Lemma combine_fst_snd {A B} (l : list (A * B)) : combine (map fst l) (map snd l) = l.
Proof. induction l as [|[a b] r IH]; cbn; congruence. Qed.

(** ** transform *)

Lemma keep_Inc {X Y} (f : X -> option Y) l : Inc (map fst l) -> Inc (map fst (keep f l)).
Proof.
  induction l as [|[t v] r IH]; cbn; intro H; [constructor|].
  inversion H as [|? ? H1 H2]; subst. specialize (IH H1).
  destruct (f v) as [y|]; cbn; [|exact IH]. constructor; [exact IH|].
  rewrite Forall_forall in *. intros u Hu. apply H2.
  apply in_map_iff in Hu as ((u' & w) & <- & Hu). cbn.
  unfold keep in Hu. apply in_flat_map in Hu as ((t' & v') & Hin & Hu).
  destruct (f v'); [|contradiction]. destruct Hu as [Hu|[]]. injection Hu as -> _.
  apply in_map_iff. exists (u', v'). auto.
Qed.

Lemma transform_spec {X Y} (f : X -> option Y) (s : seq X) : WF s ->
  exists s', transform_values f s = Ok s' /\ WF s' /\ typed s' = true /\ iter s' = keep f (iter s).
Proof.
  intro W. unfold transform_values. fold (keep f (iter s)).
  assert (Inc (map fst (keep f (iter s)))).
  { apply keep_Inc. rewrite iter_fst; [apply W|exact W]. }
  rewrite new_seq_ok; [|rewrite !map_length; reflexivity|assumption].
  eexists; split; [reflexivity|]. split; [split; [cbn; rewrite !map_length; reflexivity|assumption]|].
  split; [reflexivity|]. unfold iter at 1; cbn. apply combine_fst_snd.
Qed.

(** ** shift *)
Lemma Inc_shift d ts : Inc ts -> Inc (map (fun t => t + d) ts).
Proof.
  induction 1 as [|x r H IH Hall]; cbn; constructor; [exact IH|].
  rewrite Forall_forall in *. intros y Hy. apply in_map_iff in Hy as (z & <- & Hz).
  specialize (Hall z Hz). qlra.
Qed.

Lemma shift_spec {X} (s : seq X) d : WF s ->
  exists s', shift_timestamps s d = Ok s' /\ WF s' /\ typed s' = true /\
    tss s' = map (fun t => t + d) (tss s) /\ vals s' = vals s.
Proof.
  intros [Hl Hi]. unfold shift_timestamps.
  rewrite new_seq_ok; [|rewrite map_length; exact Hl|apply Inc_shift; exact Hi].
  eexists; split; [reflexivity|]. split; [|auto].
  split; cbn; [rewrite map_length; exact Hl|apply Inc_shift; exact Hi].
Qed.
