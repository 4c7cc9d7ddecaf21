(** Model of src/dg_commons/utils_toolz.py and src/dg_commons/time.py. *)
From Coq Require Import List Bool Arith ZArith.
From Verif Require Import Base.
Import ListNotations.

Section Toolz.
  Context {K : Type} (keqb : K -> K -> bool).

  (** [itertools.product] as its documentation defines it
      (result = [[]]; for pool in pools: result = [x+[y] for x in result for y in pool]). *)
  Definition product {V} (pools : list (list V)) : list (list V) :=
    fold_left (fun acc pool => flat_map (fun x => map (fun y => x ++ [y]) pool) acc) pools [[]].

  (** [dict(pairs)] / [frozendict(pairs)]: later pairs overwrite earlier ones. *)
  Definition dict_of {V} (l : list (K * V)) : list (K * V) :=
    fold_left (fun d p => aset keqb d (fst p) (snd p)) l [].

  (** iterate_dict_combinations, utils_toolz.py:14-24.  A mapping is the list of
      its items in iteration order; the generator is the list it yields. *)
  Definition iterate_dict_combinations {V} (a : list (K * list V)) : list (list (K * V)) :=
    let ks := akeys a in
    let vs := flat_map (fun k => match aget keqb a k with Some c => [c] | None => [] end) ks in
    map (fun x => dict_of (combine ks x)) (product vs).

  (** fkeyfilter, utils_toolz.py:27-29 (cytoolz.keyfilter: iterate the items,
      keep those whose key satisfies the predicate). *)
  Definition fkeyfilter {V} (pred : K -> bool) (a : list (K * V)) : list (K * V) :=
    dict_of (fold_left (fun d p => if pred (fst p) then aset keqb d (fst p) (snd p) else d) a []).

  (** valmap, utils_toolz.py:42-44 and fvalmap, 37-39. *)
  Definition valmap {V W} (f : V -> W) (a : list (K * V)) : list (K * W) :=
    fold_left (fun d p => aset keqb d (fst p) (f (snd p))) a [].
  Definition fvalmap {V W} (f : V -> W) (a : list (K * V)) : list (K * W) :=
    dict_of (valmap f a).

  (** fd, utils_toolz.py:47-49. *)
  Definition fd {V} (a : list (K * V)) : list (K * V) := dict_of a.

  (** fs, utils_toolz.py:52-54: a set, represented by its distinct elements. *)
  Definition fs (a : list K) : list K :=
    fold_left (fun s x => if existsb (keqb x) s then s else s ++ [x]) a [].
End Toolz.

(** ** time.py *)

(** What a call of a Python callable does: it may change the world [W] and
    returns a value or raises.  Used for [time_function], time.py:8-21. *)
Definition call (A W R : Type) : Type := A -> W -> W * result R.

(** The things time_function uses from outside: the clock, the logger, and the
    attributes of the wrapped callable.  [qualname_of] fails for callables
    without [__qualname__] (e.g. functools.partial objects, instances with
    __call__).  Used for [time_function], time.py:8-21. *)
Record timing_env (W : Type) := mkTE
  { process_time : W -> W * Z;
    log_info : W -> Z -> W;
    read_names : result unit }.
Arguments mkTE {W}. Arguments process_time {W}. Arguments log_info {W}. Arguments read_names {W}.

(** time_function, time.py:8-21: [try: return func(...) finally: ...].  An
    exception in the finally block replaces the outcome. *)
Definition time_function {A W R} (E : timing_env W) (func : call A W R) : call A W R :=
  fun args w =>
    let (w1, start) := process_time E w in
    let (w2, out) := func args w1 in
    let (w3, stop) := process_time E w2 in
    match read_names E with
    | Err e => (w3, Err e)
    | Ok _ => (log_info E w3 (stop - start)%Z, out)
    end.
