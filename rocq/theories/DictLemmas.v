(** Lemmas on the dict model ([aget]/[aset]/[adel]) and on [rfold]/[rmapM]. *)
From Coq Require Import List Bool Arith Lia.
From Verif Require Import Base.
Import ListNotations.

Section Dict.
  Context {V : Type}.
  Implicit Types (d : list (nat * V)) (k : nat) (v : V).
  Notation dget := (aget Nat.eqb).
  Notation dset := (aset Nat.eqb).
  Notation ddel := (adel Nat.eqb).

  Lemma dget_cons k0 v d k : dget ((k0, v) :: d) k = if Nat.eqb k0 k then Some v else dget d k.
  Proof. reflexivity. Qed.
  Lemma dget_dset_same d k v : dget (dset d k v) k = Some v.
  Proof.
    induction d as [|[k' v'] r IH]; cbn.
    - rewrite Nat.eqb_refl; reflexivity.
    - destruct (Nat.eqb k' k) eqn:E; cbn; rewrite E; [reflexivity|exact IH].
  Qed.
  Lemma dget_dset_other d k k' v : k <> k' -> dget (dset d k v) k' = dget d k'.
  Proof.
    intro N. induction d as [|[k2 v2] r IH]; cbn.
    - destruct (Nat.eqb_spec k k'); [contradiction|reflexivity].
    - destruct (Nat.eqb_spec k2 k) as [->|N2]; cbn.
      + destruct (Nat.eqb_spec k k'); [contradiction|reflexivity].
      + destruct (Nat.eqb k2 k'); [reflexivity|exact IH].
  Qed.
  Lemma dget_dset d k k' v : dget (dset d k v) k' = if Nat.eqb k k' then Some v else dget d k'.
  Proof.
    destruct (Nat.eqb_spec k k') as [->|N]; [apply dget_dset_same|apply dget_dset_other; exact N].
  Qed.
  Lemma dget_In_keys d k : dget d k <> None <-> In k (akeys d).
  Proof.
    unfold akeys. induction d as [|[k' v'] r IH]; cbn; [tauto|].
    destruct (Nat.eqb_spec k' k) as [->|N].
    - split; [left; reflexivity|discriminate].
    - rewrite IH. split; [tauto|intros [?|?]; [contradiction|assumption]].
  Qed.
  Lemma dget_None d k : dget d k = None <-> ~ In k (akeys d).
  Proof. rewrite <- dget_In_keys. destruct (dget d k); split; try congruence; intro H; exfalso; apply H; discriminate. Qed.
  Lemma dget_Some_In d k v : dget d k = Some v -> In k (akeys d).
  Proof. intro H. apply dget_In_keys. congruence. Qed.
  Lemma In_keys_dget d k : In k (akeys d) -> exists v, dget d k = Some v.
  Proof. intro H. apply dget_In_keys in H. destruct (dget d k); [eauto|contradiction]. Qed.
  Lemma keys_dset d k v : In k (akeys d) -> akeys (dset d k v) = akeys d.
  Proof.
    unfold akeys. induction d as [|[k' v'] r IH]; cbn; [contradiction|].
    destruct (Nat.eqb_spec k' k) as [->|N]; cbn; [reflexivity|].
    intros [?|H]; [contradiction|]. f_equal; apply IH; exact H.
  Qed.
  Lemma keys_dset_new d k v : ~ In k (akeys d) -> akeys (dset d k v) = akeys d ++ [k].
  Proof.
    unfold akeys. induction d as [|[k' v'] r IH]; cbn; [reflexivity|].
    intro H. destruct (Nat.eqb_spec k' k) as [->|N]; [exfalso; apply H; left; reflexivity|].
    cbn. f_equal. apply IH. tauto.
  Qed.
  Lemma In_keys_dset d k v k' : In k' (akeys (dset d k v)) <-> k' = k \/ In k' (akeys d).
  Proof.
    rewrite <- !dget_In_keys, dget_dset. destruct (Nat.eqb_spec k k') as [->|N].
    - split; [left; reflexivity|discriminate].
    - split; [tauto|intros [?|?]; [congruence|assumption]].
  Qed.
  Lemma keys_ddel d k : NoDup (akeys d) -> akeys (ddel d k) = filter (fun x => negb (Nat.eqb x k)) (akeys d).
  Proof.
    unfold akeys. induction d as [|[k' v'] r IH]; cbn; intro N; [reflexivity|].
    inversion N as [|? ? N1 N2]; subst.
    destruct (Nat.eqb_spec k' k) as [->|E]; cbn.
    - clear IH N. induction (map fst r) as [|x l IHl]; cbn; [reflexivity|].
      destruct (Nat.eqb_spec x k) as [->|E]; cbn.
      + exfalso; apply N1; left; reflexivity.
      + f_equal; apply IHl; [intro C; apply N1; right; exact C|inversion N2; assumption].
    - f_equal. apply IH; exact N2.
  Qed.
  Lemma dget_ddel_other d k k' : k <> k' -> dget (ddel d k) k' = dget d k'.
  Proof.
    intro N. induction d as [|[k2 v2] r IH]; cbn; [reflexivity|].
    destruct (Nat.eqb_spec k2 k) as [->|N2]; cbn.
    - destruct (Nat.eqb_spec k k'); [contradiction|reflexivity].
    - destruct (Nat.eqb k2 k'); [reflexivity|exact IH].
  Qed.
  Lemma In_keys_ddel d k k' : NoDup (akeys d) -> (In k' (akeys (ddel d k)) <-> In k' (akeys d) /\ k' <> k).
  Proof.
    intro N. rewrite (keys_ddel _ _ N), filter_In. destruct (Nat.eqb_spec k' k); cbn; intuition congruence.
  Qed.
  Lemma NoDup_ddel d k : NoDup (akeys d) -> NoDup (akeys (ddel d k)).
  Proof. intro N. rewrite (keys_ddel _ _ N). apply NoDup_filter; exact N. Qed.
  Lemma dget_ddel_same d k : NoDup (akeys d) -> dget (ddel d k) k = None.
  Proof. intro N. apply dget_None. rewrite (In_keys_ddel _ _ _ N). tauto. Qed.
  Lemma agetE_Ok d k v : agetE Nat.eqb d k = Ok v <-> dget d k = Some v.
  Proof. unfold agetE. destruct (dget d k); split; congruence. Qed.
  Lemma agetE_in d k : In k (akeys d) -> exists v, agetE Nat.eqb d k = Ok v.
  Proof. intro H. apply In_keys_dget in H as [v H]. exists v. apply agetE_Ok; exact H. Qed.
  Lemma NoDup_dset d k v : NoDup (akeys d) -> NoDup (akeys (dset d k v)).
  Proof.
    intro N. destruct (in_dec Nat.eq_dec k (akeys d)) as [H|H].
    - rewrite keys_dset by exact H; exact N.
    - rewrite keys_dset_new by exact H.
      induction (akeys d) as [|x l IH]; cbn; [constructor; [tauto|constructor]|].
      inversion N; subst. constructor.
      + rewrite in_app_iff. cbn. intros [C|[C|[]]]; [contradiction|]. apply H. left; congruence.
      + apply IH; [assumption|]. intro C; apply H; right; exact C.
  Qed.
End Dict.
Global Arguments akeys : simpl never.
Global Arguments aget : simpl never.
Global Arguments aset : simpl never.
Global Arguments adel : simpl never.

(** Folding with an invariant indexed by the processed prefix. *)
Lemma rfold_inv {S A} (f : S -> A -> result S) (P : list A -> S -> Prop) :
  forall l pre s s', P pre s ->
  (forall pre x s s', P pre s -> In x l -> f s x = Ok s' -> P (pre ++ [x]) s') ->
  rfold f s l = Ok s' -> P (pre ++ l) s'.
Proof.
  induction l as [|x r IH]; cbn; intros pre s s' H0 Hs H.
  - injection H as <-. rewrite app_nil_r; exact H0.
  - destruct (f s x) as [s1|e] eqn:E; [|discriminate].
    replace (pre ++ x :: r) with ((pre ++ [x]) ++ r) by (rewrite <- app_assoc; reflexivity).
    eapply IH; [|intros; eapply Hs; eauto|exact H].
    eapply Hs; [exact H0|left; reflexivity|exact E].
Qed.

Lemma rfold_inv_nd {S A} (f : S -> A -> result S) (P : list A -> S -> Prop) :
  forall l pre s s', P pre s -> NoDup (pre ++ l) ->
  (forall pre x s s', P pre s -> ~ In x pre -> In x l -> f s x = Ok s' -> P (pre ++ [x]) s') ->
  rfold f s l = Ok s' -> P (pre ++ l) s'.
Proof.
  induction l as [|x r IH]; cbn; intros pre s s' H0 N Hs H.
  - injection H as <-. rewrite app_nil_r; exact H0.
  - destruct (f s x) as [s1|e] eqn:E; [|discriminate].
    replace (pre ++ x :: r) with ((pre ++ [x]) ++ r) in * by (rewrite <- app_assoc; reflexivity).
    eapply IH; [|exact N|intros; eapply Hs; eauto|exact H].
    eapply Hs; [exact H0| |left; reflexivity|exact E].
    rewrite <- app_assoc in N. apply NoDup_remove_2 in N. intro C; apply N. apply in_or_app; left; exact C.
Qed.

Lemma rfold_err {S A} (f : S -> A -> result S) (P : list A -> S -> Prop) :
  forall l pre s e, P pre s -> NoDup (pre ++ l) ->
  (forall pre x s s', P pre s -> ~ In x pre -> In x l -> f s x = Ok s' -> P (pre ++ [x]) s') ->
  rfold f s l = Err e ->
  exists pre' x s', P pre' s' /\ ~ In x pre' /\ In x l /\ f s' x = Err e.
Proof.
  induction l as [|x r IH]; cbn; intros pre s e H0 N Hs H; [discriminate|].
  assert (Nx : ~ In x pre).
  { apply NoDup_remove_2 in N. intro C; apply N. apply in_or_app; left; exact C. }
  destruct (f s x) as [s1|e'] eqn:E.
  - replace (pre ++ x :: r) with ((pre ++ [x]) ++ r) in * by (rewrite <- app_assoc; reflexivity).
    destruct (IH (pre ++ [x]) s1 e) as (pre' & y & s' & A1 & A2 & A3 & A4); try assumption.
    + eapply Hs; [exact H0|exact Nx|left; reflexivity|exact E].
    + intros; eapply Hs; eauto.
    + exists pre', y, s'. tauto.
  - injection H as <-. exists pre, x, s. tauto.
Qed.

(** Without [NoDup]. *)
Lemma rfold_err' {S A} (f : S -> A -> result S) (P : S -> Prop) :
  forall l s e, P s -> (forall x s s', P s -> In x l -> f s x = Ok s' -> P s') ->
  rfold f s l = Err e -> exists x s', P s' /\ In x l /\ f s' x = Err e.
Proof.
  induction l as [|x r IH]; cbn; intros s e H0 Hs H; [discriminate|].
  destruct (f s x) as [s1|e'] eqn:E.
  - destruct (IH s1 e) as (y & s' & A1 & A2 & A3); try assumption.
    + eapply Hs; [exact H0|left; reflexivity|exact E].
    + intros; eapply Hs; eauto.
    + exists y, s'. tauto.
  - injection H as <-. exists x, s. tauto.
Qed.

Lemma rfold_inv' {S A} (f : S -> A -> result S) (P : S -> Prop) :
  forall l s s', P s -> (forall x s s', P s -> In x l -> f s x = Ok s' -> P s') ->
  rfold f s l = Ok s' -> P s'.
Proof.
  induction l as [|x r IH]; cbn; intros s s' H0 Hs H; [injection H as <-; exact H0|].
  destruct (f s x) as [s1|e'] eqn:E; [|discriminate].
  eapply IH; [|intros; eapply Hs; eauto|exact H]. eapply Hs; eauto.
Qed.

Lemma rmapM_Ok {A B} (f : A -> result B) l ys : rmapM f l = Ok ys ->
  Forall2 (fun x y => f x = Ok y) l ys.
Proof.
  revert ys; induction l as [|x r IH]; cbn; intros ys H.
  - injection H as <-; constructor.
  - destruct (f x) eqn:E; [|discriminate]. destruct (rmapM f r); [|discriminate].
    injection H as <-. constructor; [exact E|apply IH; reflexivity].
Qed.
Lemma rmapM_total {A B} (f : A -> result B) l : (forall x, In x l -> exists y, f x = Ok y) ->
  exists ys, rmapM f l = Ok ys.
Proof.
  induction l as [|x r IH]; cbn; intro H; [eauto|].
  destruct (H x) as [y ->]; [auto|]. destruct IH as [ys ->]; eauto.
Qed.
Lemma rmapM_err {A B} (f : A -> result B) l e : rmapM f l = Err e -> exists x, In x l /\ f x = Err e.
Proof.
  induction l as [|x r IH]; cbn; [discriminate|].
  destruct (f x) as [y|e'] eqn:E; [|intros [= <-]; eauto].
  destruct (rmapM f r) as [ys|e'']; [discriminate|]. intros [= <-].
  destruct IH as (z & Hz & Hz'); [reflexivity|]. eauto.
Qed.
