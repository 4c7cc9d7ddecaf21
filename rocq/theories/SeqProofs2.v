(** Lemmas about SeqModel, part 2: interpolation, shift, builder, seq_op. *)
From Coq Require Import QArith Qcanon ZArith List Bool Arith Lia Sorted Permutation.
From Verif Require Import Base Num SeqModel SeqSpec SeqProofs.
Import ListNotations.
Open Scope Qc_scope.

(** ** The constructor on tagged stamps *)

Lemma stamp_sub_fin a b p q dt : stamp_val a = Some p -> stamp_val b = Some q ->
  stamp_sub a b = Ok dt -> dt = Fin (p - q).
Proof.
  destruct a as [?|?|[]|], b as [?|?|[]|]; cbn; intros [= <-] [= <-] [= <-]; reflexivity.
Qed.

Lemma check_steps_fin ts qs : map stamp_val ts = map Some qs ->
  check_steps ts = Ok tt -> Inc qs.
Proof.
  revert qs; induction ts as [|a r IH]; intros [|p qs] H; try discriminate; [constructor|].
  cbn in H; injection H as Ha Hr. destruct r as [|b r], qs as [|q qs]; try discriminate.
  - intros _; repeat constructor.
  - pose proof Hr as Hr'. cbn in Hr; injection Hr as Hb Hr. cbn [check_steps].
    destruct (stamp_sub b a) as [dt|] eqn:E; [|discriminate].
    pose proof (stamp_sub_fin _ _ _ _ _ Hb Ha E) as ->. cbn [xle0].
    destruct (qleb (q - p) 0) eqn:F; [discriminate|]. intro H.
    apply Inc_cons2. split; [apply sub_pos; exact F|]. apply IH; assumption.
Qed.

Lemma stamp_sub_total a b p q : stamp_val a = Some p -> stamp_val b = Some q ->
  ~ (is_dec a = true /\ is_num b = true) -> ~ (is_dec b = true /\ is_num a = true) ->
  stamp_sub a b = Ok (Fin (p - q)).
Proof.
  destruct a as [?|?|[]|], b as [?|?|[]|]; cbn; intros [= <-] [= <-] H1 H2; try reflexivity;
    exfalso; auto.
Qed.

Lemma check_steps_fin_inv ts qs : map stamp_val ts = map Some qs ->
  existsb is_dec ts && existsb is_num ts = false -> Inc qs -> check_steps ts = Ok tt.
Proof.
  revert qs; induction ts as [|a r IH]; intros [|p qs] H Hm Hi; try discriminate; [reflexivity|].
  cbn in H; injection H as Ha Hr. destruct r as [|b r], qs as [|q qs]; try discriminate; [reflexivity|].
  pose proof Hr as Hr'. cbn in Hr; injection Hr as Hb Hr. cbn [check_steps].
  apply Inc_cons2 in Hi as [Hlt Hi].
  rewrite (stamp_sub_total b a q p Hb Ha).
  - cbn [xle0]. apply sub_pos in Hlt. rewrite Hlt. apply (IH (q :: qs)); [exact Hr'| |exact Hi].
    cbn [existsb] in *. destruct (is_dec a), (is_num a); cbn in *;
      destruct (is_dec b || existsb is_dec r), (is_num b || existsb is_num r); cbn in *; congruence.
  - intros [C1 C2]. cbn [existsb] in Hm. rewrite C1, C2 in Hm. cbn in Hm.
    rewrite !orb_true_r in Hm. discriminate.
  - intros [C1 C2]. cbn [existsb] in Hm. rewrite C1, C2 in Hm. cbn in Hm.
    rewrite !orb_true_r in Hm. discriminate.
Qed.

Lemma all_timestamps ts qs : map stamp_val ts = map Some qs -> forallb is_timestamp ts = true.
Proof.
  revert qs; induction ts as [|a r IH]; intros [|p qs] H; try discriminate; [reflexivity|].
  cbn in H; injection H as Ha Hr. cbn. rewrite (IH _ Hr), andb_true_r.
  destruct a as [?|?|[]|]; try reflexivity; discriminate.
Qed.

Lemma ctor_iff {X} ts qs (vs : list X) : map stamp_val ts = map Some qs ->
  (exists r, ctor true ts vs = Ok r) <->
  length ts = length vs /\ Inc qs /\ ~ (existsb is_dec ts = true /\ existsb is_num ts = true).
Proof.
  intro H. unfold ctor. rewrite (all_timestamps _ _ H). cbn [negb].
  destruct (Nat.eqb_spec (length ts) (length vs)) as [E|E]; cbn [negb].
  2:{ split; [intros [r Hr]; discriminate|intros [C _]; contradiction]. }
  split.
  - intros [r Hr]. destruct (check_steps ts) as [[]|] eqn:C; [|discriminate].
    split; [exact E|]. split; [eapply check_steps_fin; eassumption|].
    intros [D1 D2]. rewrite D1, D2 in Hr. discriminate.
  - intros (_ & Hi & Hm).
    assert (Hf : existsb is_dec ts && existsb is_num ts = false).
    { destruct (existsb is_dec ts), (existsb is_num ts); try reflexivity. exfalso; apply Hm; auto. }
    rewrite (check_steps_fin_inv _ _ H Hf Hi), Hf. eauto.
Qed.

Lemma ctor_result {X} c ts (vs : list X) r : ctor c ts vs = Ok r -> r = (ts, vs).
Proof.
  unfold ctor. destruct c; [|congruence]. destruct (negb _); [discriminate|].
  destruct (negb _); [discriminate|]. destruct (check_steps ts); [|discriminate].
  destruct (_ && _); congruence.
Qed.

(** [new_seq] is [ctor] on one family. *)
Lemma ctor_new_seq {X} qs (vs : list X) :
  (exists s, new_seq true qs vs = Ok s) <-> (exists r, ctor true (map SDec qs) vs = Ok r).
Proof.
  rewrite (ctor_iff (map SDec qs) qs vs) by (rewrite map_map; reflexivity).
  rewrite map_length. split.
  - intros [s H]. apply new_seq_inv in H as (H1 & H2 & _). split; [exact H1|]. split; [exact H2|].
    intros [_ C]. apply existsb_exists in C as (x & Hx & C). apply in_map_iff in Hx as (q & <- & _).
    discriminate.
  - intros (H1 & H2 & _). eexists; apply new_seq_ok; assumption.
Qed.

(** ** start and end *)
Lemma rev_head {A} (l : list A) x r : rev l = x :: r -> nth_error l (length l - 1) = Some x.
Proof.
  intro H. assert (L : l = rev r ++ [x]). { rewrite <- (rev_involutive l), H. reflexivity. }
  rewrite L, app_length, rev_length. cbn. rewrite nth_error_app2; rewrite rev_length; [|lia].
  replace (length r + 1 - 1 - length r)%nat with O by lia. reflexivity.
Qed.
Lemma rev_nil_iff {A} (l : list A) : rev l = [] <-> l = [].
Proof. split; [|intros ->; reflexivity]. intro H. rewrite <- (rev_involutive l), H. reflexivity. Qed.

Lemma get_end_nth {X} (s : seq X) t : get_end s = Ok t ->
  nth_error (tss s) (length (tss s) - 1) = Some t.
Proof.
  unfold get_end. destruct (rev (tss s)) as [|x r] eqn:E; [discriminate|].
  intros [= <-]. eapply rev_head; exact E.
Qed.
Lemma get_start_nth {X} (s : seq X) t : get_start s = Ok t <-> nth_error (tss s) 0 = Some t.
Proof. unfold get_start. destruct (tss s); cbn; split; congruence. Qed.
Lemma get_end_iff {X} (s : seq X) t : get_end s = Ok t <->
  nth_error (tss s) (length (tss s) - 1) = Some t.
Proof.
  split; [apply get_end_nth|]. unfold get_end.
  destruct (rev (tss s)) as [|x r] eqn:E.
  - apply (proj1 (rev_nil_iff _)) in E. rewrite E; discriminate.
  - apply rev_head in E. rewrite E. congruence.
Qed.

(** ** at_interp *)

Lemma item_pred_0 {A} (l : list A) : item_pred l 0 = match last_of l with Some v => Ok v | None => Err PyIndexError end.
Proof.
  unfold item_pred, last_of. destruct (rev l) as [|x r] eqn:E.
  - apply (proj1 (rev_nil_iff _)) in E; subst; reflexivity.
  - apply rev_head in E. rewrite E; reflexivity.
Qed.


Lemma at_interp_spec {X} mulX addX (s : seq X) t : WF s -> tss s <> [] ->
  exists v, at_interp mulX addX s t = Ok v /\ interp_rel mulX addX s t v.
Proof.
  intros [Hl Hi] Hne. unfold at_interp, get_start.
  destruct (tss s) as [|t0 r] eqn:Et; [contradiction|]. rewrite <- Et in *. clear Hne.
  assert (H0 : nth_error (tss s) 0 = Some t0) by (rewrite Et; reflexivity).
  destruct (nth_error_same_len _ (vals s) _ _ Hl H0) as [v0 Hv0].
  destruct (qleb_spec t t0) as [C|C].
  { unfold item. rewrite Hv0. eexists; split; [reflexivity|]. eapply ir_before; eassumption. }
  destruct (get_end s) as [t1|e] eqn:Ee.
  2:{ exfalso. unfold get_end in Ee. destruct (rev (tss s)) eqn:E; [|discriminate].
      apply (proj1 (rev_nil_iff _)) in E. rewrite E in H0; discriminate. }
  apply get_end_nth in Ee.
  destruct (qleb_spec t1 t) as [D|D].
  { rewrite item_pred_0. unfold last_of.
    destruct (nth_error_same_len _ (vals s) _ _ Hl Ee) as [v1 Hv1]. rewrite Hl in Hv1. rewrite Hv1.
    eexists; split; [reflexivity|]. eapply ir_after; [exact Ee|exact D|exact Hv1|].
    rewrite H0. intros [= ->]. exact (Qclt_not_eq _ _ C eq_refl). }
  destruct (bisect_right_spec (tss s) t Hi) as (i & -> & Hlen & HL & HR).
  destruct i as [|i].
  { exfalso. specialize (HR O t0 ltac:(lia) H0). exact (Qclt_not_le _ _ HR (Qclt_le_weak _ _ C)). }
  cbn [item_pred].
  assert (Hb : (S i < length (tss s))%nat).
  { destruct (Nat.eq_dec (S i) (length (tss s))) as [E|E]; [exfalso|lia].
    specialize (HL (length (tss s) - 1)%nat t1 ltac:(lia) Ee). exact (Qclt_not_le _ _ D HL). }
  unfold item.
  destruct (nth_error (tss s) i) as [ta|] eqn:Ea; [|apply nth_error_None in Ea; lia].
  destruct (nth_error (tss s) (S i)) as [tb|] eqn:Eb; [|apply nth_error_None in Eb; lia].
  destruct (nth_error_same_len _ (vals s) _ _ Hl Ea) as [va Hva].
  destruct (nth_error_same_len _ (vals s) _ _ Hl Eb) as [vb Hvb].
  assert (Hab : ta < tb) by (eapply (Inc_nth _ Hi i (S i)); [lia|eassumption..]).
  destruct (qeqb_spec (tb - ta) 0) as [F|F]; [exfalso; qlra|].
  rewrite Hva, Hvb. eexists; split; [reflexivity|].
  eapply ir_inside; try eassumption.
  - apply (HL i ta); [lia|exact Ea].
  - apply (HR (S i) tb); [lia|exact Eb].
  - destruct i; [right|left; congruence]. rewrite H0 in Ea; injection Ea as <-. exact C.
Qed.

Lemma interp_rel_fun {X} mulX addX (s : seq X) t v w : WF s ->
  interp_rel mulX addX s t v -> interp_rel mulX addX s t w -> v = w.
Proof.
  intros [Hl Hi] A B.
  assert (Hlast : forall i ti, last_of (tss s) = Some ti -> forall a, nth_error (tss s) i = Some a -> a <= ti).
  { intros i ti Hlst a Ha. eapply (Inc_le_nth (tss s) i (length (tss s) - 1)); [exact Hi|exact Ha|exact Hlst|].
    assert (i < length (tss s))%nat by (apply nth_error_Some; congruence). lia. }
  assert (Hfirst : forall i ti, nth_error (tss s) 0 = Some ti -> forall a, nth_error (tss s) i = Some a -> ti <= a).
  { intros i ti Hf a Ha. eapply (Inc_le_nth (tss s) 0 i); [exact Hi|exact Hf|exact Ha|lia]. }
  inversion A as [p x A1 A2 A3|p x A1 A2 A3 A4|i ta tb va vb A1 A2 A3 A4 A5 A6 A7];
  inversion B as [q y B1 B2 B3|q y B1 B2 B3 B4|j ua ub wa wb B1 B2 B3 B4 B5 B6 B7]; subst.
  - congruence.
  - exfalso. pose proof (Hlast _ _ B1 _ A1) as L. apply B4. rewrite A1. f_equal. qlra.
  - exfalso. destruct B7 as [B7|B7].
    + assert (p < ua) by (eapply (Inc_nth _ Hi 0 j); [lia|eassumption..]). qlra.
    + pose proof (Hfirst _ _ A1 _ B1). qlra.
  - exfalso. pose proof (Hlast _ _ A1 _ B1) as L. apply A4. rewrite B1. f_equal. qlra.
  - congruence.
  - exfalso. pose proof (Hlast _ _ A1 _ B2). qlra.
  - exfalso. destruct A7 as [A7|A7].
    + assert (q < ta) by (eapply (Inc_nth _ Hi 0 i); [lia|eassumption..]). qlra.
    + pose proof (Hfirst _ _ B1 _ A1). qlra.
  - exfalso. pose proof (Hlast _ _ B1 _ A2). qlra.
  - assert (i = j) as ->.
    { destruct (Nat.lt_trichotomy i j) as [L|[L|L]]; [exfalso|exact L|exfalso].
      - assert (tb <= ua) by (eapply (Inc_le_nth (tss s) (S i) j); [exact Hi|eassumption|eassumption|lia]). qlra.
      - assert (ub <= ta) by (eapply (Inc_le_nth (tss s) (S j) i); [exact Hi|eassumption|eassumption|lia]). qlra. }
    rewrite A1 in B1; injection B1 as <-. rewrite A2 in B2; injection B2 as <-. congruence.
Qed.


Lemma interpQ_chord va vb ta tb t : ta < tb ->
  va * (1 - (t - ta) / (tb - ta)) + vb * ((t - ta) / (tb - ta)) =
  va + (vb - va) * (t - ta) / (tb - ta).
Proof.
  intro H. field. intro C. qlra.
Qed.

Lemma frac_bounds ta tb t : ta < tb -> ta <= t -> t < tb ->
  0 <= (t - ta) / (tb - ta) /\ (t - ta) / (tb - ta) < 1.
Proof.
  intros H1 H2 H3.
  assert (E : (t - ta) / (tb - ta) * (tb - ta) = t - ta) by (field; intro C; qlra).
  set (x := (t - ta) / (tb - ta)) in *.
  assert (P : 0 < tb - ta) by qlra.
  split.
  - destruct (Qclt_le_dec x 0) as [L|L]; [exfalso|exact L].
    assert (x * (tb - ta) < 0). { setoid_replace 0 with (0 * (tb - ta)) by ring. apply Qcmult_lt_compat_r; assumption. }
    qlra.
  - destruct (Qclt_le_dec x 1) as [L|L]; [exact L|exfalso].
    assert (1 * (tb - ta) <= x * (tb - ta)). { apply Qcmult_le_compat_r; [exact L|apply Qclt_le_weak; exact P]. }
    qlra.
Qed.

(** ** shift commutes with every lookup *)
Lemma qltb_shift d x y : qltb (x + d) (y + d) = qltb x y.
Proof.
  destruct (qltb_spec x y) as [H|H].
  - apply qltb_lt. qlra.
  - apply qltb_ge. qlra.
Qed.
Lemma qleb_shift d x y : qleb (x + d) (y + d) = qleb x y.
Proof.
  destruct (qleb_spec x y) as [H|H].
  - apply qleb_le. qlra.
  - apply qleb_gt. qlra.
Qed.
Lemma qeqb_shift d x y : qeqb (x + d) (y + d) = qeqb x y.
Proof.
  destruct (qeqb_spec x y) as [H|H].
  - apply qeqb_eq. rewrite H; reflexivity.
  - apply qeqb_neq. intro C; apply H. qlra.
Qed.

Lemma index_of_shift d ts t : index_of (map (fun t => t + d) ts) (t + d) = index_of ts t.
Proof.
  induction ts as [|a r IH]; cbn; [reflexivity|]. rewrite qeqb_shift, IH. reflexivity.
Qed.

Lemma nth_shift d (a : list Qc) i : (i < length a)%nat ->
  nth i (map (fun t => t + d) a) 0 = nth i a 0 + d.
Proof.
  revert i; induction a as [|x r IH]; intros [|i] H; cbn in *; try lia; [reflexivity|]. apply IH; lia.
Qed.

Lemma bisect_right_loop_shift d a x fuel : forall lo hi, (hi <= length a)%nat ->
  bisect_right_loop fuel (map (fun t => t + d) a) (x + d) lo hi = bisect_right_loop fuel a x lo hi.
Proof.
  induction fuel as [|f IH]; intros lo hi H; cbn [bisect_right_loop]; [reflexivity|].
  destruct (Nat.ltb_spec lo hi) as [L|L]; [|reflexivity]. cbv zeta.
  assert (Hm : ((lo + hi) / 2 < hi)%nat) by (apply Nat.div_lt_upper_bound; lia).
  rewrite nth_shift by lia. rewrite qltb_shift. rewrite !IH by lia. reflexivity.
Qed.
Lemma bisect_left_loop_shift d a x fuel : forall lo hi, (hi <= length a)%nat ->
  bisect_left_loop fuel (map (fun t => t + d) a) (x + d) lo hi = bisect_left_loop fuel a x lo hi.
Proof.
  induction fuel as [|f IH]; intros lo hi H; cbn [bisect_left_loop]; [reflexivity|].
  destruct (Nat.ltb_spec lo hi) as [L|L]; [|reflexivity]. cbv zeta.
  assert (Hm : ((lo + hi) / 2 < hi)%nat) by (apply Nat.div_lt_upper_bound; lia).
  rewrite nth_shift by lia. rewrite qltb_shift. rewrite !IH by lia. reflexivity.
Qed.
Lemma bisect_right_shift d a x : bisect_right (map (fun t => t + d) a) (x + d) = bisect_right a x.
Proof. unfold bisect_right. rewrite map_length. apply bisect_right_loop_shift; lia. Qed.
Lemma bisect_left_shift d a x : bisect_left (map (fun t => t + d) a) (x + d) = bisect_left a x.
Proof. unfold bisect_left. rewrite map_length. apply bisect_left_loop_shift; lia. Qed.

Lemma item_map {A B} (f : A -> B) l i : item (map f l) i = rmap f (item l i).
Proof. unfold item. rewrite nth_error_map. destruct (nth_error l i); reflexivity. Qed.
Lemma item_pred_map {A B} (f : A -> B) l i : item_pred (map f l) i = rmap f (item_pred l i).
Proof.
  destruct i; [|apply item_map]. cbn. rewrite <- map_rev. destruct (rev l); reflexivity.
Qed.

Section Shift.
  Context {X : Type} (s s' : seq X) (d : Qc).
  Hypothesis Hs : tss s' = map (fun t => t + d) (tss s).
  Hypothesis Hv : vals s' = vals s.

  Lemma at_shift t : at_ s' (t + d) = at_ s t.
  Proof. unfold at_. rewrite Hs, Hv, index_of_shift. reflexivity. Qed.

  Lemma aop_shift t : at_or_previous s' (t + d) = at_or_previous s t.
  Proof.
    unfold at_or_previous, get_start. rewrite at_shift, Hv, Hs, bisect_right_shift.
    destruct (tss s) as [|t0 r]; [reflexivity|]. cbn [map]. rewrite qltb_shift. reflexivity.
  Qed.

  Lemma at_interp_shift mulX addX t : at_interp mulX addX s' (t + d) = at_interp mulX addX s t.
  Proof.
    unfold at_interp, get_start, get_end. rewrite Hv, Hs, bisect_right_shift, <- map_rev.
    destruct (tss s) as [|t0 r] eqn:Et; [reflexivity|]. rewrite <- Et.
    destruct (map (fun t => t + d) (tss s)) eqn:Em; [rewrite Et in Em; discriminate|].
    rewrite <- Em. assert (q = t0 + d) as -> by (rewrite Et in Em; cbn in Em; congruence).
    rewrite qleb_shift. destruct (qleb t t0); [reflexivity|].
    destruct (rev (tss s)) as [|t1 r1]; [reflexivity|]. cbn [map]. rewrite qleb_shift.
    destruct (qleb t1 t); [reflexivity|].
    destruct (bisect_right (tss s) t) as [i|]; [|reflexivity].
    rewrite item_pred_map, item_map.
    destruct (item_pred (tss s) i) as [ta|]; [|reflexivity].
    destruct (item (tss s) i) as [tb|]; [|reflexivity]. cbn [rmap].
    replace (tb + d - (ta + d)) with (tb - ta) by ring.
    replace (t + d - (ta + d)) with (t - ta) by ring. reflexivity.
  Qed.

  Lemma window_shift a b :
    filter (fun p => in_window (a + d) (b + d) (fst p)) (iter s') =
    map (fun p => (fst p + d, snd p)) (filter (fun p => in_window a b (fst p)) (iter s)).
  Proof.
    unfold iter. rewrite Hs, Hv. clear Hs Hv. generalize (vals s).
    induction (tss s) as [|t r IH]; intros [|v vs]; cbn; try reflexivity.
    unfold in_window at 1 3; rewrite !qleb_shift. unfold in_window.
    destruct (qleb a t && qleb t b); cbn; rewrite IH; reflexivity.
  Qed.
End Shift.

(** ** builder *)
Definition b_WF {X} (b : builder X) : Prop := length (b_ts b) = length (b_vs b) /\ Inc (b_ts b).

Lemma b_add_spec {X} (b : builder X) t v : b_WF b ->
  (Forall (fun u => u < t) (b_ts b) ->
     b_add b t v = Ok (mkB (b_ts b ++ [t]) (b_vs b ++ [v])) /\
     b_WF (mkB (b_ts b ++ [t]) (b_vs b ++ [v]))) /\
  (~ Forall (fun u => u < t) (b_ts b) -> b_add b t v = Err ZValueError).
Proof.
  intros [Hl Hi]. unfold b_add. destruct (rev (b_ts b)) as [|last r] eqn:E.
  - apply (proj1 (rev_nil_iff _)) in E. split.
    + intros _. split; [reflexivity|]. split; cbn; [rewrite !app_length; cbn; lia|].
      rewrite E; repeat constructor.
    + intro C; exfalso; apply C; rewrite E; constructor.
  - pose proof (rev_head _ _ _ E) as Hlast. destruct (qleb_spec t last) as [C|C].
    + split; [|reflexivity]. intro F. exfalso. rewrite Forall_forall in F.
      specialize (F last (nth_error_In _ _ Hlast)). exact (Qclt_not_le _ _ F C).
    + assert (F : Forall (fun u => u < t) (b_ts b)).
      { rewrite Forall_forall. intros u Hu. apply In_nth_error in Hu as [k Hk].
        eapply Qcle_lt_trans; [|exact C].
        eapply (Inc_le_nth _ k (length (b_ts b) - 1)); [exact Hi|exact Hk|exact Hlast|].
        assert (k < length (b_ts b))%nat by (apply nth_error_Some; congruence). lia. }
      split; [|intro N; contradiction]. intros _. split; [reflexivity|].
      split; cbn; [rewrite !app_length; cbn; lia|].
      apply Inc_app; [exact Hi|repeat constructor|].
      intros a b' Ha [<-|[]]. rewrite Forall_forall in F. apply F; exact Ha.
Qed.

(** ** iterate_with_dt *)
Lemma adj_nth {X} (l : list (Qc * X)) i it :
  nth_error (adj l) i = Some it <->
  exists t0 v0 t1 v1, nth_error l i = Some (t0, v0) /\ nth_error l (S i) = Some (t1, v1) /\
    it = mkIt t0 t1 (t1 - t0) v0 v1.
Proof.
  revert i; induction l as [|[t v] r IH]; intro i.
  - cbn. destruct i; split; try discriminate; intros (?&?&?&?&H&_); discriminate.
  - destruct r as [|[t' v'] r].
    + cbn. split; [destruct i; discriminate|]. intros (?&?&?&?&_&H&_). destruct i; discriminate.
    + cbn [adj]. destruct i as [|i].
      * cbn. split.
        -- intros [= <-]. do 4 eexists. repeat split; reflexivity.
        -- intros (?&?&?&?&[= <- <-]&[= <- <-]&->). reflexivity.
      * cbn [nth_error]. rewrite (IH i). reflexivity.
Qed.

Lemma adj_length {X} (l : list (Qc * X)) : length (adj l) = pred (length l).
Proof.
  induction l as [|[t v] r IH]; [reflexivity|]. destruct r as [|[t' v'] r]; [reflexivity|].
  cbn [adj length] in *. rewrite IH. reflexivity.
Qed.

Lemma qsum_app l m : qsum (l ++ m) = qsum l + qsum m.
Proof. unfold qsum. induction l as [|x r IH]; cbn; [ring|]. rewrite IH; ring. Qed.

Lemma adj_telescope {X} t0 (v0 : X) r t1 v1 :
  last_of ((t0, v0) :: r) = Some (t1, v1) ->
  qsum (map it_dt (adj ((t0, v0) :: r))) = t1 - t0.
Proof.
  revert t0 v0; induction r as [|[t v] r IH]; intros t0 v0 H.
  - cbn in H. injection H as <- <-. cbn. ring.
  - change (adj ((t0, v0) :: (t, v) :: r)) with (mkIt t0 t (t - t0) v0 v :: adj ((t, v) :: r)).
    change (qsum (map it_dt (mkIt t0 t (t - t0) v0 v :: adj ((t, v) :: r))))
      with (t - t0 + qsum (map it_dt (adj ((t, v) :: r)))).
    rewrite (IH t v).
    + ring.
    + unfold last_of in *. cbn [length] in *.
      replace (S (S (length r)) - 1)%nat with (S (length r)) in H by lia.
      replace (S (length r) - 1)%nat with (length r) by lia. exact H.
Qed.

(** ** seq_op *)
Lemma adj_pos {X} (s : seq X) it : WF s -> In it (adj (iter s)) -> 0 < it_dt it /\ it_t0 it < it_t1 it /\ it_dt it = it_t1 it - it_t0 it.
Proof.
  intros [Hl Hi] H. apply In_nth_error in H as [i H]. apply adj_nth in H as (t0&v0&t1&v1&H0&H1&->).
  unfold iter in *. apply nth_error_combine in H0 as [H0 _]. apply nth_error_combine in H1 as [H1 _]. cbn in *.
  assert (t0 < t1) by (eapply (Inc_nth _ Hi i (S i)); [lia|eassumption..]).
  repeat split; try assumption. cbn. qlra.
Qed.

Lemma iter_length {X} (s : seq X) : WF s -> length (iter s) = length (tss s).
Proof. intros [Hl _]. unfold iter. rewrite combine_length, Hl. apply Nat.min_id. Qed.

Lemma adj_t1 {X} (l : list (Qc * X)) : map it_t1 (adj l) = tl (map fst l).
Proof.
  induction l as [|[t v] r IH]; [reflexivity|]. destruct r as [|[t' v'] r]; [reflexivity|].
  cbn [adj map it_t1 tl fst] in *. rewrite IH. reflexivity.
Qed.

Lemma integ_fst total l : map fst (integ_loop total l) = map it_t1 l.
Proof. revert total; induction l as [|it r IH]; intro total; cbn; [reflexivity|]. f_equal; apply IH. Qed.

Lemma integ_nth l : forall total k t v, nth_error (integ_loop total l) k = Some (t, v) ->
  v = total + qsum (map trapz (firstn (S k) l)).
Proof.
  induction l as [|it r IH]; intros total [|k] t v H; cbn in H; try discriminate.
  - injection H as <- <-. cbn. ring.
  - apply IH in H. subst v. cbn [firstn map qsum fold_right].
    change (fold_right Qcplus 0 (map trapz (match r with [] => [] | a :: l => a :: firstn k l end)))
      with (qsum (map trapz (firstn (S k) r))). ring.
Qed.

Lemma integ_length total l : length (integ_loop total l) = length l.
Proof. revert total; induction l as [|it r IH]; intro; cbn; [reflexivity|]. f_equal; apply IH. Qed.

Lemma Inc_tl ts : Inc ts -> Inc (tl ts).
Proof. destruct 1; [constructor|assumption]. Qed.

Lemma seq_integrate_spec (s : seq Qc) : WF s -> (2 <= length (tss s))%nat -> typed s = true ->
  exists s', seq_integrate s = Ok s' /\ WF s' /\ typed s' = true /\ tss s' = tl (tss s) /\
    forall k v, nth_error (vals s') k = Some v ->
      v = qsum (map trapz (firstn (S k) (adj (iter s)))).
Proof.
  intros W H2 Ht. pose proof W as [Hl Hi]. unfold seq_integrate, seq_len.
  destruct (Nat.eqb_spec (length (tss s)) 0); [lia|].
  destruct (Nat.eqb_spec (length (vals s)) 1); [lia|].
  unfold iterate_with_dt. rewrite Ht.
  assert (E : (match adj (iter s) with [] => Ok [] | _ => Ok (adj (iter s)) end) = Ok (adj (iter s)))
    by (destruct (adj (iter s)); reflexivity).
  rewrite E.
  assert (T : map fst (integ_loop 0 (adj (iter s))) = tl (tss s)).
  { rewrite integ_fst, adj_t1, iter_fst by exact W. reflexivity. }
  rewrite new_seq_ok.
  - eexists; split; [reflexivity|]. split; [split; cbn [tss vals]|].
    + rewrite !map_length; reflexivity.
    + rewrite T. apply Inc_tl; exact Hi.
    + split; [reflexivity|]. split; [exact T|]. cbn [vals]. intros k v Hk. rewrite nth_error_map in Hk.
      destruct (nth_error (integ_loop 0 (adj (iter s))) k) as [[t w]|] eqn:F; [|discriminate].
      cbn in Hk; injection Hk as <-. apply integ_nth in F. subst w. ring.
  - rewrite !map_length; reflexivity.
  - rewrite T. apply Inc_tl; exact Hi.
Qed.

Lemma half_between a b : a < b -> a < a + (b - a) / qz 2 /\ a + (b - a) / qz 2 < b.
Proof.
  intro H.
  assert (E : (b - a) / qz 2 = (b - a) * qf 1 2) by (unfold Qcdiv; f_equal; apply Qc_is_canon; reflexivity).
  rewrite E. split; qlra.
Qed.

Lemma diff_Inc (s : seq Qc) : WF s ->
  Inc (map (fun it => it_t0 it + it_dt it / qz 2) (adj (iter s))).
Proof.
  intro W. pose proof W as [Hl Hi]. apply Inc_nth_inv. intros i j a b Hij Ha Hb.
  rewrite nth_error_map in Ha, Hb.
  destruct (nth_error (adj (iter s)) i) as [x|] eqn:Ex; [|discriminate].
  destruct (nth_error (adj (iter s)) j) as [y|] eqn:Ey; [|discriminate].
  cbn in Ha, Hb. injection Ha as <-. injection Hb as <-.
  apply adj_nth in Ex as (t0&v0&t1&v1&A0&A1&->). apply adj_nth in Ey as (u0&w0&u1&w1&B0&B1&->). cbn.
  unfold iter in *. apply nth_error_combine in A0 as [A0 _], A1 as [A1 _], B0 as [B0 _], B1 as [B1 _]. cbn in *.
  assert (t0 < t1) by (eapply (Inc_nth _ Hi i (S i)); [lia|eassumption..]).
  assert (u0 < u1) by (eapply (Inc_nth _ Hi j (S j)); [lia|eassumption..]).
  assert (t1 <= u0) by (eapply (Inc_le_nth _ (S i) j); [exact Hi|eassumption|eassumption|lia]).
  pose proof (half_between _ _ H) as [_ P]. pose proof (half_between _ _ H0) as [Q _].
  eapply Qclt_trans; [exact P|]. eapply Qcle_lt_trans; [exact H1|exact Q].
Qed.

Lemma seq_differentiate_spec (s : seq Qc) : WF s -> tss s <> [] -> typed s = true ->
  exists s', seq_differentiate s = Ok s' /\ WF s' /\
    tss s' = map (fun it => it_t0 it + it_dt it / qz 2) (adj (iter s)) /\
    vals s' = map (fun it => (it_v1 it - it_v0 it) / it_dt it) (adj (iter s)).
Proof.
  intros W Hne Ht. unfold seq_differentiate, seq_len.
  destruct (Nat.eqb_spec (length (tss s)) 0) as [C|_].
  { destruct (tss s); [contradiction|discriminate]. }
  unfold iterate_with_dt. rewrite Ht.
  assert (E : (match adj (iter s) with [] => Ok [] | _ => Ok (adj (iter s)) end) = Ok (adj (iter s)))
    by (destruct (adj (iter s)); reflexivity).
  rewrite E.
  destruct (existsb _ (adj (iter s))) eqn:F.
  { exfalso. apply existsb_exists in F as (it & Hin & F). apply qeqb_eq in F.
    destruct (adj_pos s it W Hin) as [P _]. rewrite F in P. discriminate. }
  rewrite new_seq_ok.
  - eexists; split; [reflexivity|]. split; [split|split]; cbn; try reflexivity.
    + rewrite !map_length; reflexivity.
    + apply diff_Inc; exact W.
  - rewrite !map_length; reflexivity.
  - apply diff_Inc; exact W.
Qed.

Lemma accum_nth l : forall acc k, nth_error (accum_loop acc l) k =
  match nth_error l k with Some _ => Some (acc + qsum (firstn (S k) l)) | None => None end.
Proof.
  induction l as [|x r IH]; intros acc [|k]; cbn; try reflexivity.
  - f_equal. ring.
  - rewrite IH. destruct (nth_error r k) eqn:E; [|reflexivity]. f_equal.
    destruct r as [|y r]; [destruct k; discriminate|]. cbn. ring.
Qed.

Lemma accumulate_nth l k : nth_error (accumulate l) k =
  match nth_error l k with Some _ => Some (qsum (firstn (S k) l)) | None => None end.
Proof.
  destruct l as [|x r], k as [|k]; cbn; try reflexivity.
  - f_equal; ring.
  - rewrite accum_nth. destruct (nth_error r k) eqn:E; [|reflexivity]. f_equal.
Qed.

Lemma accumulate_length l : length (accumulate l) = length l.
Proof.
  destruct l as [|x r]; [reflexivity|]. cbn. f_equal. revert x; induction r as [|y r IH]; intro x; cbn; [reflexivity|].
  f_equal; apply IH.
Qed.

(** ** builder histories *)
Definition b_rel {X} (b : builder X) (acc : list (Qc * X)) : Prop :=
  b_ts b = map fst acc /\ b_vs b = map snd acc /\ Inc (map fst acc).

Lemma b_step_rel {X} (b : builder X) acc o : b_rel b acc ->
  snd (b_step b o) = snd (spec_step acc o) /\ b_rel (fst (b_step b o)) (fst (spec_step acc o)).
Proof.
  intros (H1 & H2 & H3).
  assert (W : b_WF b) by (split; [rewrite H1, H2, !map_length; reflexivity|rewrite H1; exact H3]).
  destruct o as [t v|]; cbn.
  - destruct (b_add_spec b t v W) as [A B].
    destruct (forallb (fun p => qltb (fst p) t) acc) eqn:E.
    + assert (F : Forall (fun u => u < t) (b_ts b)).
      { rewrite H1, Forall_forall. intros u Hu. apply in_map_iff in Hu as (p & <- & Hp).
        rewrite forallb_forall in E. apply qltb_lt. apply E; exact Hp. }
      destruct (A F) as [-> W2]. cbn. split; [reflexivity|].
      split; [|split]; cbn; rewrite ?H1, ?H2, ?map_app; cbn; try reflexivity.
      destruct W2 as [_ W2]; cbn in W2. rewrite H1 in W2. exact W2.
    + rewrite B; [cbn; repeat split; assumption|]. intro F. rewrite H1 in F.
      assert (forallb (fun p => qltb (fst p) t) acc = true); [|congruence].
      apply forallb_forall. intros p Hp. apply qltb_lt. rewrite Forall_forall in F.
      apply F. apply in_map; exact Hp.
  - unfold as_sequence. rewrite new_seq_ok; [|apply W|apply W]. cbn.
    split; [|split; [assumption|split; assumption]]. unfold iter; cbn. rewrite H1, H2, combine_fst_snd. reflexivity.
Qed.

Lemma b_trace {X} (ops : list (bop X)) : forall b acc, b_rel b acc ->
  trace b_step b ops = trace spec_step acc ops.
Proof.
  induction ops as [|o r IH]; intros b acc H; cbn; [reflexivity|].
  destruct (b_step_rel b acc o H) as [-> H2]. f_equal. apply IH; exact H2.
Qed.

(** ** closure *)
Lemma obtainable_WF : forall X (s : seq X), obtainable s -> WF s.
Proof.
  induction 1 as [X ty ts vs s H|X s s' a b H IH E|X s s' d H IH E|X Y f s s' H IH E|X b s E].
  - eapply new_seq_WF; exact H.
  - unfold get_subsequence in E. destruct (qleb a b); [|discriminate].
    destruct (bisect_left _ _); [|discriminate]. destruct (bisect_right _ _); [|discriminate].
    eapply new_seq_WF; exact E.
  - eapply new_seq_WF; exact E.
  - eapply new_seq_WF; exact E.
  - eapply new_seq_WF; exact E.
Qed.

(** ** area *)
Lemma two_half x : x / qz 2 = x * qf 1 2.
Proof. unfold Qcdiv. replace (/ qz 2) with (qf 1 2) by (apply Qc_is_canon; reflexivity). reflexivity. Qed.

Lemma area_adj l : area l = qsum (map trapz (adj l)).
Proof.
  induction l as [|[t v] r IH]; [reflexivity|]. destruct r as [|[t' v'] r]; [reflexivity|].
  change (area ((t, v) :: (t', v') :: r)) with ((t' - t) * (v + v') / qz 2 + area ((t', v') :: r)).
  change (qsum (map trapz (adj ((t, v) :: (t', v') :: r)))) with
    ((v + v') / qz 2 * (t' - t) + qsum (map trapz (adj ((t', v') :: r)))).
  rewrite IH, !two_half. ring.
Qed.

Lemma adj_firstn {X} (l : list (Qc * X)) k : firstn (S k) (adj l) = adj (firstn (S (S k)) l).
Proof.
  revert k; induction l as [|[t v] r IH]; intro k; [destruct k; reflexivity|].
  destruct r as [|[t' v'] r]; [destruct k; reflexivity|].
  destruct k as [|k].
  - cbn. reflexivity.
  - change (firstn (S (S (S k))) ((t, v) :: (t', v') :: r)) with ((t, v) :: (t', v') :: firstn (S k) r).
    change (adj ((t, v) :: (t', v') :: firstn (S k) r)) with
      (mkIt t t' (t' - t) v v' :: adj (firstn (S (S k)) ((t', v') :: r))).
    rewrite <- IH. reflexivity.
Qed.

Lemma integrate_area (s : seq Qc) : WF s -> (2 <= length (tss s))%nat -> typed s = true ->
  exists s', seq_integrate s = Ok s' /\ typed s' = true /\ tss s' = tl (tss s) /\
    length (vals s') = (length (tss s) - 1)%nat /\
    forall k v, nth_error (vals s') k = Some v -> v = area (firstn (k + 2) (iter s)).
Proof.
  intros W H2 Ht. destruct (seq_integrate_spec s W H2 Ht) as (s' & E & W' & Y & T & V).
  exists s'. split; [exact E|]. split; [exact Y|]. split; [exact T|]. split.
  - destruct W' as [<- _]. rewrite T. destruct (tss s); cbn; lia.
  - intros k v Hk. rewrite (V k v Hk), area_adj, adj_firstn. replace (k + 2)%nat with (S (S k)) by lia. reflexivity.
Qed.

Lemma area_const t0 c l t1 : Forall (fun p => snd p = c) ((t0, c) :: l) ->
  last_of (map fst ((t0, c) :: l)) = Some t1 -> area ((t0, c) :: l) = c * (t1 - t0).
Proof.
  revert t0; induction l as [|[t v] r IH]; intros t0 H L.
  - cbn in *. injection L as <-. ring.
  - pose proof (Forall_inv_tail H) as H2. assert (v = c) as -> by exact (Forall_inv H2).
    change (area ((t0, c) :: (t, c) :: r)) with ((t - t0) * (c + c) / qz 2 + area ((t, c) :: r)).
    rewrite (IH t H2).
    + rewrite two_half. assert (E : c + c = qz 2 * c) by (apply Qc_is_canon; qc_rwg; ring).
      rewrite E. assert (F : qz 2 * qf 1 2 = 1) by (apply Qc_is_canon; reflexivity).
      replace ((t - t0) * (qz 2 * c) * qf 1 2) with ((t - t0) * c * (qz 2 * qf 1 2)) by ring.
      rewrite F. ring.
    + unfold last_of in *. cbn [map length] in *. rewrite map_length in *.
      replace (S (S (length r)) - 1)%nat with (S (length r)) in L by lia.
      replace (S (length r) - 1)%nat with (length r) by lia. exact L.
Qed.

Lemma area_add ts : forall us vs, length us = length ts -> length vs = length ts ->
  area (combine ts (map (fun p => fst p + snd p) (combine us vs))) =
  area (combine ts us) + area (combine ts vs).
Proof.
  induction ts as [|t r IH]; intros [|u us] [|v vs] H1 H2; try discriminate.
  - cbn; ring.
  - destruct r as [|t' r], us as [|u' us], vs as [|v' vs]; try discriminate.
    + cbn; ring.
    + specialize (IH (u' :: us) (v' :: vs) ltac:(cbn in *; lia) ltac:(cbn in *; lia)).
      cbn [combine map fst snd] in *.
      set (A := combine r (map (fun p : Qc * Qc => fst p + snd p) (combine us vs))) in *.
      set (B := combine r us) in *. set (C := combine r vs) in *.
      change (area ((t, u + v) :: (t', u' + v') :: A)) with ((t' - t) * ((u + v) + (u' + v')) / qz 2 + area ((t', u' + v') :: A)).
      change (area ((t, u) :: (t', u') :: B)) with ((t' - t) * (u + u') / qz 2 + area ((t', u') :: B)).
      change (area ((t, v) :: (t', v') :: C)) with ((t' - t) * (v + v') / qz 2 + area ((t', v') :: C)).
      rewrite IH, !two_half. ring.
Qed.

(** ** differentiate: telescoping *)
Lemma adj_value_telescope (l : list (Qc * Qc)) t0 v0 t1 v1 :
  nth_error l 0 = Some (t0, v0) -> last_of l = Some (t1, v1) ->
  qsum (map (fun it => it_v1 it - it_v0 it) (adj l)) = v1 - v0.
Proof.
  destruct l as [|[t v] r]; [discriminate|]. intros [= -> ->]. revert t0 v0.
  induction r as [|[t v] r IH]; intros t0 v0 H.
  - cbn in H. injection H as <- <-. cbn. ring.
  - change (qsum (map (fun it => it_v1 it - it_v0 it) (adj ((t0, v0) :: (t, v) :: r))))
      with (v - v0 + qsum (map (fun it => it_v1 it - it_v0 it) (adj ((t, v) :: r)))).
    rewrite IH.
    + ring.
    + unfold last_of in *. cbn [length] in *.
      replace (S (S (length r)) - 1)%nat with (S (length r)) in H by lia.
      replace (S (length r) - 1)%nat with (length r) by lia. exact H.
Qed.

Lemma combine_map_map {A B C} (f : A -> B) (g : A -> C) l : combine (map f l) (map g l) = map (fun x => (f x, g x)) l.
Proof. induction l as [|x r IH]; cbn; congruence. Qed.

(** ** crossings *)
Definition cross_of (thr : Qc) (it : iterate_dt Qc) : list Qc :=
  if xorb (qltb (it_v0 it - thr) 0) (qltb (it_v1 it - thr) 0)
  then [it_t0 it + (it_v0 it - thr) / ((it_v0 it - thr) - (it_v1 it - thr)) * (it_t1 it - it_t0 it)]
  else [].

Lemma crossings_adj thr l : crossings thr l = flat_map (cross_of thr) (adj l).
Proof.
  induction l as [|[t v] r IH]; [reflexivity|]. destruct r as [|[t' v'] r]; [reflexivity|].
  change (adj ((t, v) :: (t', v') :: r)) with (mkIt t t' (t' - t) v v' :: adj ((t', v') :: r)).
  cbn [flat_map]. rewrite <- IH. unfold cross_of; cbn [it_v0 it_v1 it_t0 it_t1].
  change (crossings thr ((t, v) :: (t', v') :: r)) with
    (if xorb (qltb (v - thr) 0) (qltb (v' - thr) 0)
     then (t + (v - thr) / ((v - thr) - (v' - thr)) * (t' - t)) :: crossings thr ((t', v') :: r)
     else crossings thr ((t', v') :: r)).
  destruct (xorb _ _); reflexivity.
Qed.

Definition changes (thr v0 v1 : Qc) : Prop := (v0 < thr /\ thr <= v1) \/ (v1 < thr /\ thr <= v0).

Lemma qltb_sub0 v thr : qltb (v - thr) 0 = qltb v thr.
Proof.
  destruct (qltb_spec v thr) as [H|H]; [apply qltb_lt|apply qltb_ge]; qlra.
Qed.

Lemma xorb_changes thr v0 v1 :
  xorb (qltb (v0 - thr) 0) (qltb (v1 - thr) 0) = true <-> changes thr v0 v1.
Proof.
  rewrite !qltb_sub0. unfold changes.
  destruct (qltb_spec v0 thr) as [A|A], (qltb_spec v1 thr) as [B|B]; cbn; split; intro H;
    try discriminate; try reflexivity; try tauto; destruct H as [[H1 H2]|[H1 H2]]; exfalso; qlra.
Qed.

Lemma frac01 a b : (a < 0 /\ 0 <= b) \/ (b < 0 /\ 0 <= a) ->
  0 <= a / (a - b) /\ a / (a - b) <= 1 /\ a / (a - b) * (a - b) = a /\ a - b <> 0.
Proof.
  intro H. assert (N : a - b <> 0) by (intro C; destruct H as [[]|[]]; qlra).
  assert (E : a / (a - b) * (a - b) = a) by (field; exact N).
  set (x := a / (a - b)) in *. destruct H as [[H1 H2]|[H1 H2]].
  - split; [|split; [|split; assumption]].
    + destruct (Qclt_le_dec x 0) as [L|L]; [exfalso|exact L]. clear N. qnra.
    + destruct (Qclt_le_dec 1 x) as [L|L]; [exfalso|exact L]. clear N. qnra.
  - split; [|split; [|split; assumption]].
    + destruct (Qclt_le_dec x 0) as [L|L]; [exfalso|exact L]. clear N. qnra.
    + destruct (Qclt_le_dec 1 x) as [L|L]; [exfalso|exact L]. clear N. qnra.
Qed.

Lemma Qcmul_nonneg a b : 0 <= a -> 0 <= b -> 0 <= a * b.
Proof. intros. qnra. Qed.
Lemma Qcmul_pos a b : 0 < a -> 0 < b -> 0 < a * b.
Proof. intros. qnra. Qed.

Lemma cross_pair thr t0 t1 v0 v1 : t0 < t1 -> changes thr v0 v1 ->
  let x := (v0 - thr) / ((v0 - thr) - (v1 - thr)) in
  let t := t0 + x * (t1 - t0) in
  t0 <= t /\ t <= t1 /\ v0 + (v1 - v0) * (t - t0) / (t1 - t0) = thr /\
  (v0 <> thr -> v1 <> thr -> t0 < t /\ t < t1).
Proof.
  intros Ht Hc x t.
  destruct (frac01 (v0 - thr) (v1 - thr)) as (X0 & X1 & XE & XN).
  { destruct Hc as [[]|[]]; [left|right]; split; qlra. }
  fold x in X0, X1, XE.
  assert (P0 : 0 <= x * (t1 - t0)) by (apply Qcmul_nonneg; [exact X0|qlra]).
  assert (P1 : 0 <= (1 - x) * (t1 - t0)) by (apply Qcmul_nonneg; qlra).
  assert (E1 : (1 - x) * (t1 - t0) = t1 - t) by (unfold t; ring).
  rewrite E1 in P1.
  split; [unfold t; qlra|]. split; [qlra|].
  split.
  - assert (F : (v1 - v0) * (t - t0) / (t1 - t0) = (v1 - v0) * x).
    { unfold t. field. intro C. qlra. }
    rewrite F. replace (v1 - v0) with (- (v0 - thr - (v1 - thr))) by ring.
    replace (- (v0 - thr - (v1 - thr)) * x) with (- (x * (v0 - thr - (v1 - thr)))) by ring.
    rewrite XE. ring.
  - intros N0 N1.
    assert (Q0 : 0 < x).
    { destruct (Qcle_lt_or_eq _ _ X0) as [L|L]; [exact L|exfalso]. rewrite <- L in XE. apply N0.
      assert (Z : 0 * (v0 - thr - (v1 - thr)) = 0) by ring. rewrite Z in XE. qlra. }
    assert (Q1 : 0 < 1 - x).
    { destruct (Qcle_lt_or_eq _ _ X1) as [L|L]; [qlra|exfalso]. rewrite L in XE. apply N1.
      assert (Z : 1 * (v0 - thr - (v1 - thr)) = v0 - thr - (v1 - thr)) by ring. rewrite Z in XE. qlra. }
    assert (D : 0 < t1 - t0) by qlra.
    pose proof (Qcmul_pos _ _ Q0 D) as R0. pose proof (Qcmul_pos _ _ Q1 D) as R1.
    rewrite E1 in R1. split; [unfold t; qlra|qlra].
Qed.

Lemma cross_of_in thr it t : In t (cross_of thr it) <->
  changes thr (it_v0 it) (it_v1 it) /\
  t = it_t0 it + (it_v0 it - thr) / ((it_v0 it - thr) - (it_v1 it - thr)) * (it_t1 it - it_t0 it).
Proof.
  unfold cross_of. destruct (xorb _ _) eqn:E.
  - apply xorb_changes in E. cbn. split; [intros [<-|[]]; auto|intros [_ ->]; auto].
  - split; [intros []|]. intros [C _]. apply xorb_changes in C. congruence.
Qed.

Lemma cross_sorted thr its :
  (forall it, In it its -> it_t0 it < it_t1 it) ->
  (forall i a b, nth_error its i = Some a -> nth_error its (S i) = Some b -> it_t1 a = it_t0 b) ->
  Sorted Qcle (flat_map (cross_of thr) its) /\
  (forall it r, its = it :: r -> forall t, In t (flat_map (cross_of thr) its) -> it_t0 it <= t).
Proof.
  induction its as [|it r IH]; intros Hp Hc; [split; [constructor|discriminate]|].
  destruct IH as [S1 S2].
  { intros; apply Hp; right; assumption. }
  { intros i a b Ha Hb. apply (Hc (S i)); assumption. }
  assert (Ht : it_t0 it < it_t1 it) by (apply Hp; left; reflexivity).
  assert (Hin : forall t, In t (cross_of thr it) -> it_t0 it <= t /\ t <= it_t1 it).
  { intros t Hin. apply cross_of_in in Hin as [C ->].
    destruct (cross_pair thr _ _ _ _ Ht C) as (A & B & _). auto. }
  assert (Hr : forall t, In t (flat_map (cross_of thr) r) -> it_t1 it <= t).
  { intros t H. destruct r as [|it2 r2]; [destruct H|].
    rewrite (Hc O it it2 eq_refl eq_refl). apply (S2 it2 r2 eq_refl t H). }
  split.
  - cbn [flat_map]. unfold cross_of at 1. destruct (xorb _ _) eqn:E; [|exact S1].
    cbn. constructor; [exact S1|]. destruct (flat_map (cross_of thr) r) as [|u us] eqn:F; constructor.
    eapply Qcle_trans; [|apply Hr; left; reflexivity].
    apply (Hin _). apply cross_of_in. apply xorb_changes in E. auto.
  - intros it' r' [= <- <-] t H. cbn [flat_map] in H. apply in_app_or in H as [H|H].
    + apply Hin; exact H.
    + eapply Qcle_trans; [apply Qclt_le_weak; exact Ht|]. apply Hr; exact H.
Qed.

Lemma nth_error_firstn' {A} n (l : list A) i : (i < n)%nat -> nth_error (firstn n l) i = nth_error l i.
Proof.
  revert l i; induction n as [|n IH]; intros l i H; [lia|]. destruct l as [|x r]; [reflexivity|].
  destruct i as [|i]; cbn; [reflexivity|]. apply IH; lia.
Qed.
