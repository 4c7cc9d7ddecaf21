(* Generated from tools/Toolz.src by tools/gen_props.py. *)
(** Properties of the mapping helpers and the timing decorator. *)
From Coq Require Import List Bool Arith ZArith Lia.
From Verif Require Import Base DictLemmas ToolzModel.
Import ListNotations.
From Verif Require Import ToolzMain.

(** C13: the generator yields exactly the choices of one option per key... *)
Theorem C13_yields_exactly_the_choices :
  forall (K V : Type) (keqb : K -> K -> bool), (forall a b, keqb a b = true <-> a = b) ->
  forall (m : list (K * list V)), NoDup (map fst m) ->
  forall d,
    In d (iterate_dict_combinations keqb m) <->
    Forall2 (fun p q => fst q = fst p /\ In (snd q) (snd p)) m d.
Proof. exact C13_yields_exactly_the_choices_pf. Qed.
Print Assumptions C13_yields_exactly_the_choices.

(** ... each once when no key lists an option twice... *)
Theorem C13_each_choice_once :
  forall (K V : Type) (keqb : K -> K -> bool), (forall a b, keqb a b = true <-> a = b) ->
  forall (m : list (K * list V)), NoDup (map fst m) -> Forall (fun p => NoDup (snd p)) m ->
    NoDup (iterate_dict_combinations keqb m).
Proof. exact C13_each_choice_once_pf. Qed.
Print Assumptions C13_each_choice_once.

(** ... and their number is the product of the numbers of options. *)
Theorem C13_count :
  forall (K V : Type) (keqb : K -> K -> bool), (forall a b, keqb a b = true <-> a = b) ->
  forall (m : list (K * list V)), NoDup (map fst m) ->
    length (iterate_dict_combinations keqb m) =
    fold_right Nat.mul 1 (map (fun p => length (snd p)) m) /\
    (m = [] -> iterate_dict_combinations keqb m = [[]]) /\
    ((exists k, In (k, []) m) -> iterate_dict_combinations keqb m = []).
Proof. exact C13_count_pf. Qed.
Print Assumptions C13_count.

Example C13_two_players :
  iterate_dict_combinations Nat.eqb [(7, [1; 2]); (3, [5; 6; 4])] =
  [[(7,1);(3,5)]; [(7,1);(3,6)]; [(7,1);(3,4)]; [(7,2);(3,5)]; [(7,2);(3,6)]; [(7,2);(3,4)]] /\
  NoDup (map fst [(7, [1; 2]); (3, [5; 6; 4])]).
Proof. split; [reflexivity|]. repeat constructor; cbn; intuition discriminate. Qed.

(** C72: the mapping helpers keep the order and exactly the right entries:
    [fkeyfilter] the items whose key passes, [valmap]/[fvalmap] every key with
    its image, [fd] everything. *)
Theorem C72_mapping_helpers :
  forall (K V W : Type) (keqb : K -> K -> bool), (forall a b, keqb a b = true <-> a = b) ->
  forall (m : list (K * V)) (pred : K -> bool) (f : V -> W), NoDup (map fst m) ->
    fkeyfilter keqb pred m = filter (fun p => pred (fst p)) m /\
    valmap keqb f m = map (fun p => (fst p, f (snd p))) m /\
    fvalmap keqb f m = map (fun p => (fst p, f (snd p))) m /\
    fd keqb m = m.
Proof. exact C72_mapping_helpers_pf. Qed.
Print Assumptions C72_mapping_helpers.

(** C72: [fs] is the set of the elements of the collection. *)
Theorem C72_fs_is_the_set :
  forall (K : Type) (keqb : K -> K -> bool), (forall a b, keqb a b = true <-> a = b) ->
  forall (l : list K), NoDup (fs keqb l) /\ forall x, In x (fs keqb l) <-> In x l.
Proof. exact C72_fs_is_the_set_pf. Qed.
Print Assumptions C72_fs_is_the_set.

Example C72_instance :
  fkeyfilter Nat.eqb Nat.even [(4, 1); (3, 2); (2, 9)] = [(4, 1); (2, 9)] /\
  fs Nat.eqb [3; 1; 3; 2; 1] = [3; 1; 2].
Proof. split; reflexivity. Qed.

(** C71: the decorated function has the outcome of the function itself, value
    or exception, and the same effect on the world apart from reading the
    clock before and after and emitting one log line, with the time that passed
    in between, at the end. *)
Theorem C71_timing_is_transparent :
  forall (A W R : Type) (E : timing_env W) (f : call A W R) (args : A) (w : W),
    read_names E = Ok tt ->
    let w1 := fst (process_time E w) in
    snd (time_function E f args w) = snd (f args w1) /\
    let before := snd (process_time E w) in
    let after := snd (process_time E (fst (f args w1))) in
    fst (time_function E f args w) = log_info E (fst (process_time E (fst (f args w1)))) (after - before)%Z.
Proof. exact C71_timing_is_transparent_pf. Qed.
Print Assumptions C71_timing_is_transparent.

(** C71: in particular, with a clock that does not disturb the rest of the
    world and a logger that only appends to a log. *)
Theorem C71_timing_only_adds_a_log_line :
  forall (A U R : Type) (clock : U * list Z -> Z) (f : A -> U -> U * result R) (args : A) (u : U) (lg : list Z),
    let E := mkTE (fun w => (w, clock w)) (fun w d => (fst w, snd w ++ [d])) (Ok tt) in
    let g : call A (U * list Z) R := fun a w => let (u', r) := f a (fst w) in ((u', snd w), r) in
    let d := (clock (fst (f args u), lg) - clock (u, lg))%Z in
    time_function E g args (u, lg) = ((fst (f args u), lg ++ [d]), snd (f args u)).
Proof. exact C71_timing_only_adds_a_log_line_pf. Qed.
Print Assumptions C71_timing_only_adds_a_log_line.

(** C71 fails for callables that are not plain functions: a callable object
    without [__qualname__] (functools.partial, an instance with __call__) that
    returns normally raises AttributeError once decorated. *)
Theorem C71_callable_object_refuted :
  exists (E : timing_env unit) (f : call nat unit nat) (args : nat),
    read_names E = Err PyAttributeError /\
    snd (f args tt) = Ok 5 /\ snd (time_function E f args tt) = Err PyAttributeError.
Proof. exact C71_callable_object_refuted_pf. Qed.
Print Assumptions C71_callable_object_refuted.

Example C71_instance :
  let E := mkTE (fun w => (S w, Z.of_nat w)) (fun w _ => w) (Ok tt) in
  time_function E (fun a w => (w + a, if Nat.even a then Ok a else Err PyKeyError)) 3 10 = (15, Err PyKeyError).
Proof. reflexivity. Qed.
