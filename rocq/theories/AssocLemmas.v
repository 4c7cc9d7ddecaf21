(** Dict lemmas for an arbitrary key type with decidable equality. *)
From Coq Require Import List Bool Arith Lia.
From Verif Require Import Base DictLemmas.
Import ListNotations.

Section Assoc.
  Context {K V : Type} (eqb : K -> K -> bool).
  Hypothesis Heq : forall a b, eqb a b = true <-> a = b.
  Implicit Types (d : list (K * V)) (k : K) (v : V).

  Lemma eqb_refl' k : eqb k k = true.
  Proof. apply Heq; reflexivity. Qed.
  Lemma eqb_neq' a b : eqb a b = false <-> a <> b.
  Proof. split; intro H; [intro C; apply Heq in C; congruence|]. destruct (eqb a b) eqn:E; [apply Heq in E; contradiction|reflexivity]. Qed.
  Lemma aget_cons k0 v d k : aget eqb ((k0, v) :: d) k = if eqb k0 k then Some v else aget eqb d k.
  Proof. reflexivity. Qed.
  Lemma aset_cons k0 v0 d k v : aset eqb ((k0, v0) :: d) k v = if eqb k0 k then (k0, v) :: d else (k0, v0) :: aset eqb d k v.
  Proof. reflexivity. Qed.
  Lemma aget_aset_same d k v : aget eqb (aset eqb d k v) k = Some v.
  Proof.
    induction d as [|[k' v'] r IH].
    - change (aset eqb [] k v) with [(k, v)]. rewrite aget_cons, eqb_refl'. reflexivity.
    - rewrite aset_cons. destruct (eqb k' k) eqn:E; rewrite aget_cons, E; [reflexivity|exact IH].
  Qed.
  Lemma aget_aset_other d k k' v : k <> k' -> aget eqb (aset eqb d k v) k' = aget eqb d k'.
  Proof.
    intro N. apply eqb_neq' in N. induction d as [|[k2 v2] r IH].
    - change (aset eqb [] k v) with [(k, v)]. rewrite aget_cons, N. reflexivity.
    - rewrite aset_cons. destruct (eqb k2 k) eqn:E; rewrite !aget_cons.
      + apply Heq in E; subst. rewrite N. reflexivity.
      + rewrite IH. reflexivity.
  Qed.
  Lemma aget_In d k v : aget eqb d k = Some v -> In (k, v) d.
  Proof.
    induction d as [|[k' v'] r IH]; [discriminate|]. rewrite aget_cons. destruct (eqb k' k) eqn:E.
    - intros [= ->]. apply Heq in E; subst. left; reflexivity.
    - intro H. right. apply IH; exact H.
  Qed.
  Lemma aget_keys d k : aget eqb d k <> None <-> In k (map fst d).
  Proof.
    induction d as [|[k' v'] r IH]; [cbn; tauto|]. rewrite aget_cons. cbn [map fst In]. destruct (eqb k' k) eqn:E.
    - apply Heq in E. split; [left; exact E|discriminate].
    - rewrite IH. apply eqb_neq' in E. tauto.
  Qed.
  Lemma aget_none d k : aget eqb d k = None <-> ~ In k (map fst d).
  Proof. rewrite <- aget_keys. destruct (aget eqb d k); split; try congruence. intro H; exfalso; apply H; discriminate. Qed.
  Lemma aget_some_key d k v : aget eqb d k = Some v -> In k (map fst d).
  Proof. intro H. apply aget_keys. congruence. Qed.
  Lemma In_aget d k v : NoDup (map fst d) -> In (k, v) d -> aget eqb d k = Some v.
  Proof.
    induction d as [|[k' v'] r IH]; [intros _ []|]. cbn [map fst]. intro N. inversion N as [|? ? N1 N2]; subst.
    rewrite aget_cons. intros [[= -> ->]|H].
    - rewrite eqb_refl'. reflexivity.
    - destruct (eqb k' k) eqn:E; [|apply IH; assumption]. apply Heq in E; subst. exfalso. apply N1.
      change k with (fst (k, v)). apply in_map. exact H.
  Qed.
  Lemma aset_keys_in d k v : In k (map fst d) -> map fst (aset eqb d k v) = map fst d.
  Proof.
    induction d as [|[k' v'] r IH]; [intros []|]. rewrite aset_cons. destruct (eqb k' k) eqn:E.
    - intros _. reflexivity.
    - intros [C|H]; [cbn in C; apply eqb_neq' in E; contradiction|]. cbn [map fst]. f_equal. apply IH; exact H.
  Qed.
  Lemma aset_keys_new d k v : ~ In k (map fst d) -> aset eqb d k v = d ++ [(k, v)].
  Proof.
    induction d as [|[k' v'] r IH]; [reflexivity|]. rewrite aset_cons. intro N. destruct (eqb k' k) eqn:E.
    - apply Heq in E; subst. exfalso. apply N. left; reflexivity.
    - cbn. f_equal. apply IH. intro C. apply N. right; exact C.
  Qed.
  Lemma aset_keys d k v k' : In k' (map fst (aset eqb d k v)) <-> k' = k \/ In k' (map fst d).
  Proof.
    rewrite <- !aget_keys. destruct (eqb k k') eqn:E.
    - apply Heq in E; subst. rewrite aget_aset_same. split; [auto|discriminate].
    - apply eqb_neq' in E. rewrite aget_aset_other by exact E. split; [auto|]. intros [C|H]; [congruence|exact H].
  Qed.
  Lemma aset_NoDup d k v : NoDup (map fst d) -> NoDup (map fst (aset eqb d k v)).
  Proof.
    intro N. destruct (aget eqb d k) eqn:E.
    - rewrite aset_keys_in; [exact N|]. eapply aget_some_key; exact E.
    - apply aget_none in E. rewrite aset_keys_new by exact E. rewrite map_app. cbn.
      apply NoDup_rev in N. rewrite <- rev_involutive. apply NoDup_rev. rewrite rev_app_distr. cbn. constructor; [|exact N].
      rewrite <- in_rev. exact E.
  Qed.
End Assoc.
