(* Generated from tools/Toolz.src by tools/gen_props.py. *)
(** Properties of the mapping helpers and the timing decorator. *)
From Coq Require Import List Bool Arith ZArith Lia.
From Verif Require Import Base DictLemmas ToolzModel.
Import ListNotations.

Lemma Forall2_length' {A B} (R : A -> B -> Prop) l m : Forall2 R l m -> length l = length m.
Proof. induction 1; cbn; congruence. Qed.

Lemma product_acc {V} (pools : list (list V)) : forall acc x,
  In x (fold_left (fun acc pool => flat_map (fun x => map (fun y => x ++ [y]) pool) acc) pools acc) <->
  exists p q, x = p ++ q /\ In p acc /\ Forall2 (@In V) q pools.
Proof.
  induction pools as [|pool r IH]; intros acc x; cbn [fold_left].
  - split.
    + intro H. exists x, []. rewrite app_nil_r. auto.
    + intros (p & q & -> & H & F). inversion F; subst. rewrite app_nil_r. exact H.
  - rewrite IH. split.
    + intros (p & q & -> & H & F). apply in_flat_map in H as (p0 & H0 & H1).
      apply in_map_iff in H1 as (y & <- & Hy). exists p0, (y :: q).
      rewrite <- app_assoc. repeat split; auto.
    + intros (p & q & -> & H & F). inversion F as [|y ? q' ? Hy F']; subst.
      exists (p ++ [y]), q'. rewrite <- app_assoc. repeat split; auto.
      apply in_flat_map. exists p. split; [exact H|]. apply in_map_iff. eauto.
Qed.

Lemma product_in {V} (pools : list (list V)) x :
  In x (product pools) <-> Forall2 (@In V) x pools.
Proof.
  unfold product. rewrite product_acc. split.
  - intros (p & q & -> & [<-|[]] & F). exact F.
  - intro F. exists [], x. cbn. auto.
Qed.

Lemma NoDup_app_intro {A} (l m : list A) : NoDup l -> NoDup m ->
  (forall x, In x l -> In x m -> False) -> NoDup (l ++ m).
Proof.
  induction 1 as [|x l Hx Hl IH]; cbn; intros Hm D; [exact Hm|].
  constructor.
  - rewrite in_app_iff. intros [C|C]; [contradiction|]. exact (D x (or_introl eq_refl) C).
  - apply IH; [exact Hm|]. intros y H1 H2. exact (D y (or_intror H1) H2).
Qed.

Lemma NoDup_flat_ext {V} (pool : list V) (acc : list (list V)) :
  NoDup pool -> NoDup acc ->
  NoDup (flat_map (fun x => map (fun y => x ++ [y]) pool) acc).
Proof.
  intros Hp Ha. induction Ha as [|x acc Hx Ha IH]; cbn; [constructor|].
  apply NoDup_app_intro; [|exact IH|].
  - clear -Hp. induction Hp as [|y p Hy Hp IHp]; cbn; constructor; [|exact IHp].
    intro C. apply in_map_iff in C as (z & E & Hz). apply app_inj_tail in E as [_ ->]. contradiction.
  - intros z H1 H2. apply in_map_iff in H1 as (y & <- & Hy).
    apply in_flat_map in H2 as (x' & H3 & H4). apply in_map_iff in H4 as (y' & E & _).
    apply app_inj_tail in E as [-> _]. contradiction.
Qed.

Lemma product_NoDup {V} (pools : list (list V)) : Forall (@NoDup V) pools -> NoDup (product pools).
Proof.
  unfold product. intro F. assert (N : NoDup [@nil V]) by (constructor; [intros []|constructor]).
  revert N. generalize [@nil V] as acc. induction F as [|pool r Hp F IH]; cbn [fold_left]; intros acc N; [exact N|].
  apply IH. apply NoDup_flat_ext; assumption.
Qed.

Lemma product_length {V} (pools : list (list V)) :
  length (product pools) = fold_right Nat.mul 1 (map (@length V) pools).
Proof.
  unfold product.
  assert (G : forall acc, length (fold_left (fun acc pool => flat_map (fun x => map (fun y : V => x ++ [y]) pool) acc) pools acc)
     = length acc * fold_right Nat.mul 1 (map (@length V) pools)).
  { induction pools as [|pool r IH]; cbn [fold_left map fold_right]; intro acc; [lia|].
    rewrite IH. assert (E : length (flat_map (fun x => map (fun y : V => x ++ [y]) pool) acc) = length acc * length pool).
    { clear. induction acc as [|x a IHa]; cbn; [reflexivity|]. rewrite app_length, map_length, IHa. lia. }
    rewrite E. lia. }
  rewrite G. cbn. lia.
Qed.

Lemma dict_of_fresh {K V} (keqb : K -> K -> bool) (Heq : forall a b, keqb a b = true <-> a = b)
  (l : list (K * V)) : NoDup (map fst l) -> dict_of keqb l = l.
Proof.
  unfold dict_of. intro H.
  assert (G : forall d, (forall k, In k (map fst d) -> ~ In k (map fst l)) ->
    fold_left (fun d p => aset keqb d (fst p) (snd p)) l d = d ++ l).
  { induction l as [|[k v] r IH]; cbn [fold_left fst snd]; intros d D; [rewrite app_nil_r; reflexivity|].
    inversion H as [|? ? H1 H2]; subst.
    assert (E : aset keqb d k v = d ++ [(k, v)]).
    { assert (Nk : ~ In k (map fst d)) by (intro C; exact (D _ C (or_introl eq_refl))).
      clear -Nk Heq. induction d as [|[k' v'] d IHd]; [reflexivity|].
      change (aset keqb ((k', v') :: d) k v) with (if keqb k' k then (k', v) :: d else (k', v') :: aset keqb d k v).
      destruct (keqb k' k) eqn:E; [apply Heq in E; subst; exfalso; apply Nk; left; reflexivity|].
      cbn. f_equal. apply IHd. intro C. apply Nk. right. exact C. }
    rewrite E, IH; [rewrite <- app_assoc; reflexivity|exact H2|].
    intros k0 H0 C. rewrite map_app, in_app_iff in H0. destruct H0 as [H0|[<-|[]]].
    - exact (D _ H0 (or_intror C)).
    - contradiction. }
  rewrite G; [reflexivity|]. intros k [].
Qed.

Lemma aget_own {K V} (keqb : K -> K -> bool) (Heq : forall a b, keqb a b = true <-> a = b)
  (a : list (K * V)) : NoDup (map fst a) ->
  flat_map (fun k => match aget keqb a k with Some c => [c] | None => [] end) (akeys a) = map snd a.
Proof.
  unfold akeys. intro H.
  assert (G : forall l, (forall k v, In (k, v) l -> aget keqb a k = Some v) ->
    flat_map (fun k => match aget keqb a k with Some c => [c] | None => [] end) (map fst l) = map snd l).
  { induction l as [|[k v] l IH]; cbn [map flat_map fst snd]; intro D; [reflexivity|].
    rewrite (D k v (or_introl eq_refl)). cbn. f_equal. apply IH. intros k0 v0 H0. apply D. right; exact H0. }
  apply G. clear G. induction a as [|[k' v'] r IH]; intros k v Hin; [destruct Hin|].
  inversion H as [|? ? H1 H2]; subst.
  change (aget keqb ((k', v') :: r) k) with (if keqb k' k then Some v' else aget keqb r k).
  destruct Hin as [E|Hin].
  - injection E as -> ->. rewrite (proj2 (Heq k k) eq_refl). reflexivity.
  - destruct (keqb k' k) eqn:E.
    + apply Heq in E; subst. exfalso. apply H1. change k with (fst (k, v)). apply in_map. exact Hin.
    + apply IH; assumption.
Qed.

Lemma idc_eq {K V} (keqb : K -> K -> bool) (Heq : forall a b, keqb a b = true <-> a = b)
  (a : list (K * list V)) : NoDup (map fst a) ->
  iterate_dict_combinations keqb a = map (combine (map fst a)) (product (map snd a)).
Proof.
  intro H. unfold iterate_dict_combinations. rewrite aget_own by assumption.
  apply map_ext_in. intros x Hx. apply product_in in Hx. apply Forall2_length' in Hx. rewrite map_length in Hx.
  unfold akeys. apply dict_of_fresh; [exact Heq|].
  assert (E : map fst (combine (map fst a) x) = map fst a).
  { clear -Hx. revert x Hx. induction a as [|[k c] r IH]; intros [|y x] L; cbn in *; try lia; [reflexivity|].
    f_equal. apply IH. lia. }
  rewrite E. exact H.
Qed.

Lemma combine_inj {A B} (l : list A) (x y : list B) :
  length x = length l -> length y = length l -> combine l x = combine l y -> x = y.
Proof.
  revert x y; induction l as [|a l IH]; intros [|b x] [|c y] L1 L2 E; cbn in *; try lia; [reflexivity|].
  injection E as -> E. f_equal. apply IH; lia || exact E.
Qed.

(** A choice of one option per key: [d] has exactly the keys of [a], in order,
    and every chosen value is one of the options of its key. *)
Definition choice_of {K V} (a : list (K * list V)) (d : list (K * V)) : Prop :=
  Forall2 (fun p q => fst q = fst p /\ In (snd q) (snd p)) a d.

Lemma choice_combine {K V} (a : list (K * list V)) d :
  choice_of a d <-> exists x, d = combine (map fst a) x /\ Forall2 (@In V) x (map snd a).
Proof.
  unfold choice_of. split.
  - induction 1 as [|[k c] [k' v] a d [E H] F (x & -> & Fx)]; [exists []; cbn; auto|].
    cbn in E, H. subst. exists (v :: x). cbn. split; [reflexivity|constructor; assumption].
  - intros (x & -> & F). revert x F. induction a as [|[k c] r IH]; intros x F; cbn in *; inversion F; subst; cbn; constructor; cbn; auto.
Qed.

(** C13: the generator yields exactly the choices of one option per key... *)
Lemma C13_yields_exactly_the_choices_pf :
  forall (K V : Type) (keqb : K -> K -> bool), (forall a b, keqb a b = true <-> a = b) ->
  forall (m : list (K * list V)), NoDup (map fst m) ->
  forall d,
    In d (iterate_dict_combinations keqb m) <->
    Forall2 (fun p q => fst q = fst p /\ In (snd q) (snd p)) m d.
Proof.
  intros K V keqb Heq m H d. rewrite (idc_eq keqb Heq m H), in_map_iff, (choice_combine m d). split.
  - intros (x & <- & Hx). apply product_in in Hx. eauto.
  - intros (x & -> & Hx). exists x. split; [reflexivity|]. apply product_in. exact Hx.
Qed.

(** ... each once when no key lists an option twice... *)
Lemma C13_each_choice_once_pf :
  forall (K V : Type) (keqb : K -> K -> bool), (forall a b, keqb a b = true <-> a = b) ->
  forall (m : list (K * list V)), NoDup (map fst m) -> Forall (fun p => NoDup (snd p)) m ->
    NoDup (iterate_dict_combinations keqb m).
Proof.
  intros K V keqb Heq m H F. rewrite (idc_eq keqb Heq m H).
  assert (N : NoDup (product (map snd m))).
  { apply product_NoDup. rewrite Forall_map. exact F. }
  assert (G : forall x, In x (product (map snd m)) -> length x = length (map fst m)).
  { intros x Hx. apply product_in in Hx. apply Forall2_length' in Hx. rewrite Hx, !map_length. reflexivity. }
  induction N as [|x l Hx N IH]; cbn; constructor.
  - intro C. apply in_map_iff in C as (y & E & Hy). apply Hx.
    assert (x = y); [|subst; exact Hy].
    apply (combine_inj (map fst m)); [apply G; left; reflexivity|apply G; right; exact Hy|congruence].
  - apply IH. intros y Hy. apply G. right; exact Hy.
Qed.

(** ... and their number is the product of the numbers of options. *)
Lemma C13_count_pf :
  forall (K V : Type) (keqb : K -> K -> bool), (forall a b, keqb a b = true <-> a = b) ->
  forall (m : list (K * list V)), NoDup (map fst m) ->
    length (iterate_dict_combinations keqb m) =
    fold_right Nat.mul 1 (map (fun p => length (snd p)) m) /\
    (m = [] -> iterate_dict_combinations keqb m = [[]]) /\
    ((exists k, In (k, []) m) -> iterate_dict_combinations keqb m = []).
Proof.
  intros K V keqb Heq m H.
  assert (L : length (iterate_dict_combinations keqb m) =
    fold_right Nat.mul 1 (map (fun p => length (snd p)) m)).
  { rewrite (idc_eq keqb Heq m H), map_length, product_length, map_map. reflexivity. }
  split; [exact L|]. split.
  - intros ->. reflexivity.
  - intros (k & Hk). apply length_zero_iff_nil. rewrite L.
    clear -Hk. induction m as [|[k' c] r IH]; [destruct Hk|]. destruct Hk as [E|Hk]; cbn.
    + injection E as -> ->. reflexivity.
    + rewrite (IH Hk). lia.
Qed.

Lemma fold_aset_fresh {K V W} (keqb : K -> K -> bool) (Heq : forall a b, keqb a b = true <-> a = b)
  (f : V -> W) (l : list (K * V)) : NoDup (map fst l) ->
  fold_left (fun d p => aset keqb d (fst p) (f (snd p))) l [] = map (fun p => (fst p, f (snd p))) l.
Proof.
  intro H. rewrite <- (dict_of_fresh keqb Heq (map (fun p => (fst p, f (snd p))) l)).
  - unfold dict_of. generalize (@nil (K * W)) as d. clear H.
    induction l as [|[k v] r IH]; intro d; cbn [fold_left map fst snd]; [reflexivity|]. apply IH.
  - rewrite map_map. cbn. exact H.
Qed.

Lemma fold_filter_fresh {K V} (keqb : K -> K -> bool) (Heq : forall a b, keqb a b = true <-> a = b)
  (pred : K -> bool) (l : list (K * V)) : NoDup (map fst l) ->
  fold_left (fun d p => if pred (fst p) then aset keqb d (fst p) (snd p) else d) l [] =
  filter (fun p => pred (fst p)) l /\ NoDup (map fst (filter (fun p => pred (fst p)) l)).
Proof.
  intro H.
  assert (N : NoDup (map fst (filter (fun p : K * V => pred (fst p)) l))).
  { induction l as [|[k v] r IH]; cbn; [constructor|]. inversion H as [|? ? H1 H2]; subst.
    destruct (pred k); cbn; [constructor|]; auto.
    intro C. apply H1. apply in_map_iff in C as (p & E & Hp). apply filter_In in Hp as [Hp _].
    apply in_map_iff. eauto. }
  split; [|exact N].
  rewrite <- (dict_of_fresh keqb Heq (filter (fun p : K * V => pred (fst p)) l) N) at 1.
  unfold dict_of. generalize (@nil (K * V)) as d. clear H N.
  induction l as [|[k v] r IH]; intro d; cbn [fold_left filter fst snd]; [reflexivity|].
  destruct (pred k); cbn [fold_left fst snd]; apply IH.
Qed.

(** C72: the mapping helpers keep the order and exactly the right entries:
    [fkeyfilter] the items whose key passes, [valmap]/[fvalmap] every key with
    its image, [fd] everything. *)
Lemma C72_mapping_helpers_pf :
  forall (K V W : Type) (keqb : K -> K -> bool), (forall a b, keqb a b = true <-> a = b) ->
  forall (m : list (K * V)) (pred : K -> bool) (f : V -> W), NoDup (map fst m) ->
    fkeyfilter keqb pred m = filter (fun p => pred (fst p)) m /\
    valmap keqb f m = map (fun p => (fst p, f (snd p))) m /\
    fvalmap keqb f m = map (fun p => (fst p, f (snd p))) m /\
    fd keqb m = m.
Proof.
  intros K V W keqb Heq m pred f H.
  destruct (fold_filter_fresh keqb Heq pred m H) as [E N].
  split; [unfold fkeyfilter; rewrite E; apply dict_of_fresh; assumption|].
  assert (E2 : valmap keqb f m = map (fun p => (fst p, f (snd p))) m)
    by (apply fold_aset_fresh; assumption).
  split; [exact E2|]. split.
  - unfold fvalmap. rewrite E2. apply dict_of_fresh; [exact Heq|]. rewrite map_map. cbn. exact H.
  - apply dict_of_fresh; assumption.
Qed.

(** C72: [fs] is the set of the elements of the collection. *)
Lemma C72_fs_is_the_set_pf :
  forall (K : Type) (keqb : K -> K -> bool), (forall a b, keqb a b = true <-> a = b) ->
  forall (l : list K), NoDup (fs keqb l) /\ forall x, In x (fs keqb l) <-> In x l.
Proof.
  intros K keqb Heq l. unfold fs.
  assert (G : forall s, NoDup s ->
    NoDup (fold_left (fun s x => if existsb (keqb x) s then s else s ++ [x]) l s) /\
    forall x, In x (fold_left (fun s x => if existsb (keqb x) s then s else s ++ [x]) l s) <-> In x s \/ In x l).
  { induction l as [|y r IH]; cbn [fold_left]; intros s N; [split; [exact N|cbn; tauto]|].
    destruct (existsb (keqb y) s) eqn:E.
    - apply existsb_exists in E as (z & Hz & Ez). apply Heq in Ez; subst z.
      destruct (IH s N) as [N' I]. split; [exact N'|]. intro x. rewrite I. cbn.
      split; [tauto|]. intros [H|[->|H]]; tauto.
    - assert (Ny : ~ In y s).
      { intro C. assert (existsb (keqb y) s = true); [|congruence]. apply existsb_exists.
        exists y. split; [exact C|]. apply Heq. reflexivity. }
      destruct (IH (s ++ [y])) as [N' I].
      { apply NoDup_app_intro; [exact N|constructor; [intros []|constructor]|].
        intros x H1 [<-|[]]. contradiction. }
      split; [exact N'|]. intro x. rewrite I, in_app_iff. cbn. tauto. }
  destruct (G [] (NoDup_nil _)) as [N I]. split; [exact N|]. intro x. rewrite I. cbn. tauto.
Qed.

(** C71: the decorated function has the outcome of the function itself, value
    or exception, and the same effect on the world apart from reading the
    clock before and after and emitting one log line, with the time that passed
    in between, at the end. *)
Lemma C71_timing_is_transparent_pf :
  forall (A W R : Type) (E : timing_env W) (f : call A W R) (args : A) (w : W),
    read_names E = Ok tt ->
    let w1 := fst (process_time E w) in
    snd (time_function E f args w) = snd (f args w1) /\
    let before := snd (process_time E w) in
    let after := snd (process_time E (fst (f args w1))) in
    fst (time_function E f args w) = log_info E (fst (process_time E (fst (f args w1)))) (after - before)%Z.
Proof.
  intros A W R E f args w H. unfold time_function. destruct (process_time E w) as [w1 s]. cbn [fst].
  destruct (f args w1) as [w2 out]. cbn [fst snd]. destruct (process_time E w2) as [w3 t]. rewrite H.
  cbn. split; reflexivity.
Qed.

(** C71: in particular, with a clock that does not disturb the rest of the
    world and a logger that only appends to a log. *)
Lemma C71_timing_only_adds_a_log_line_pf :
  forall (A U R : Type) (clock : U * list Z -> Z) (f : A -> U -> U * result R) (args : A) (u : U) (lg : list Z),
    let E := mkTE (fun w => (w, clock w)) (fun w d => (fst w, snd w ++ [d])) (Ok tt) in
    let g : call A (U * list Z) R := fun a w => let (u', r) := f a (fst w) in ((u', snd w), r) in
    let d := (clock (fst (f args u), lg) - clock (u, lg))%Z in
    time_function E g args (u, lg) = ((fst (f args u), lg ++ [d]), snd (f args u)).
Proof.
  intros A U R clock f args u lg E g d. unfold d, time_function, E, g; cbn [process_time log_info read_names fst snd].
  destruct (f args u) as [u' r]. reflexivity.
Qed.

(** C71 fails for callables that are not plain functions: a callable object
    without [__qualname__] (functools.partial, an instance with __call__) that
    returns normally raises AttributeError once decorated. *)
Lemma C71_callable_object_refuted_pf :
  exists (E : timing_env unit) (f : call nat unit nat) (args : nat),
    read_names E = Err PyAttributeError /\
    snd (f args tt) = Ok 5 /\ snd (time_function E f args tt) = Err PyAttributeError.
Proof.
  exists (mkTE (fun w => (w, 0%Z)) (fun w _ => w) (Err PyAttributeError)),
    (fun a w => (w, Ok (a + 2))), 3.
  repeat split.
Qed.
