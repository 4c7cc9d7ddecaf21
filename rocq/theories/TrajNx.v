(** A concrete path search meeting the networkx contract [nx_ok] on every graph
    built with the class: the contract is satisfiable. *)
From Coq Require Import QArith Qcanon ZArith List Bool Arith Lia Sorted.
From Verif Require Import Base Num SeqModel SeqSpec SeqProofs SeqProofs2 VehState TrajModel TrajSpec AssocLemmas TrajProofs TrajGraphProofs.
Import ListNotations.
Open Scope Qc_scope.

Fixpoint reach (g : graph) (k : nat) (u : node) : list (list node) :=
  (if has_node g u then [[u]] else []) ++
  match k with
  | O => []
  | S k => flat_map (fun e => if node_eqb (fst e) u then map (cons u) (reach g k (snd e)) else []) (edges g)
  end.

Definition ends_at (v : node) (l : list node) : bool :=
  match last_of l with Some n => node_eqb n v | None => false end.

Fixpoint shortest (l : list (list node)) : list node :=
  match l with
  | [] => []
  | [x] => x
  | x :: r => let y := shortest r in if (length x <=? length y)%nat then x else y
  end.

Definition paths (g : graph) (u v : node) : list (list node) :=
  filter (ends_at v) (reach g (length (nodes g)) u).

Definition search : nx :=
  mkNX (fun _ => true)
       (fun g u v => match paths g u v with [] => false | _ => true end)
       (fun g u v => shortest (paths g u v)).

Lemma reach_sound g k : forall u l, In l (reach g k u) -> exists v, walk g u v l.
Proof.
  induction k as [|k IH]; intros u l H; cbn [reach] in H; apply in_app_or in H as [H|H].
  - destruct (has_node g u) eqn:E; [|destruct H]. destruct H as [<-|[]]. exists u. constructor. apply has_node_iff; exact E.
  - destruct H.
  - destruct (has_node g u) eqn:E; [|destruct H]. destruct H as [<-|[]]. exists u. constructor. apply has_node_iff; exact E.
  - apply in_flat_map in H as ([a b] & He & H). cbn [fst snd] in H. destruct (node_eqb a u) eqn:E; [|destruct H].
    apply node_eqb_eq in E; subst. apply in_map_iff in H as (m & <- & Hm). destruct (IH _ _ Hm) as [v W].
    exists v. eapply walk_step; eassumption.
Qed.

Lemma reach_complete g u v l : walk g u v l -> forall k, (length l <= S k)%nat -> In l (reach g k u).
Proof.
  induction 1 as [u H|u x w l E W IH]; intros k Hk.
  - destruct k; cbn [reach]; rewrite (proj2 (has_node_iff g u) H); apply in_or_app; left; left; reflexivity.
  - destruct l as [|y l]; [inversion W|]. cbn [length] in Hk. destruct k as [|k]; [lia|]. cbn [reach].
    apply in_or_app; right. apply in_flat_map. exists (u, x). split; [exact E|]. cbn [fst snd].
    rewrite (proj2 (node_eqb_eq u u) eq_refl). apply in_map. apply IH. cbn [length]. lia.
Qed.

Lemma Inc_NoDup ts : Inc ts -> NoDup ts.
Proof.
  induction 1 as [|x l H IH F]; constructor; [|exact IH]. intro C. rewrite Forall_forall in F.
  specialize (F x C). qlra.
Qed.

Lemma walk_length g u v l : GI g -> walk g u v l -> (length l <= length (nodes g))%nat.
Proof.
  intros I W. destruct (walk_Inc g u v l I W) as [Hi _]. apply Inc_NoDup in Hi. apply NoDup_map_inv in Hi.
  apply NoDup_incl_length; [exact Hi|]. intros n Hn. apply (walk_nodes g u v l I W). exact Hn.
Qed.

Lemma paths_iff g u v l : GI g -> In l (paths g u v) <-> walk g u v l.
Proof.
  intro I. unfold paths. rewrite filter_In. split.
  - intros [H E]. destruct (reach_sound _ _ _ _ H) as [w W]. unfold ends_at in E.
    destruct (walk_head _ _ _ _ W) as [_ Hl]. rewrite Hl in E. apply node_eqb_eq in E. subst. exact W.
  - intro W. split.
    + apply (reach_complete g u v l W). pose proof (walk_length g u v l I W). lia.
    + unfold ends_at. destruct (walk_head _ _ _ _ W) as [_ Hl]. rewrite Hl. apply node_eqb_eq; reflexivity.
Qed.

Lemma shortest_spec l : l <> [] -> In (shortest l) l /\ forall x, In x l -> (length (shortest l) <= length x)%nat.
Proof.
  induction l as [|x r IH]; intro H; [contradiction|]. destruct r as [|y r].
  - cbn. split; [auto|]. intros z [<-|[]]; lia.
  - destruct IH as [I1 I2]; [discriminate|].
    change (shortest (x :: y :: r)) with
      (let s := shortest (y :: r) in if (length x <=? length s)%nat then x else s). cbv zeta.
    destruct (length x <=? length (shortest (y :: r)))%nat eqn:E.
    + apply Nat.leb_le in E. split; [left; reflexivity|]. intros z [<-|Hz]; [lia|]. specialize (I2 z Hz). lia.
    + apply Nat.leb_gt in E. split; [right; exact I1|]. intros z [<-|Hz]; [lia|]. apply I2; exact Hz.
Qed.

Lemma search_ok g : built g -> nx_ok search g.
Proof.
  intro B. pose proof (built_GI g B) as I. split.
  - cbn. split; [intros _ u l; apply walk_acyclic; exact I|reflexivity].
  - intros u v. cbn. destruct (paths g u v) as [|p ps] eqn:E.
    + split; [discriminate|]. intros [l W]. apply (paths_iff g u v l I) in W. rewrite E in W. destruct W.
    + split; [|reflexivity]. intros _. exists p. apply (paths_iff g u v p I). rewrite E. left; reflexivity.
  - intros u v H. cbn in *. assert (Ne : paths g u v <> []) by (destruct (paths g u v); discriminate).
    destruct (shortest_spec _ Ne) as [S1 S2]. split; [apply (paths_iff g u v _ I); exact S1|].
    intros l W. apply S2. apply (paths_iff g u v l I). exact W.
Qed.
