(** Exceptions as values and list helpers shared by every model file. *)
From Coq Require Import List Arith Lia Bool.
Import ListNotations.

(** One constructor per Python exception class that the modelled code can
    raise (builtin or from zuper_commons / dg_commons). *)
Inductive exn :=
| ZValueError        (* zuper_commons.types.ZValueError *)
| UndefinedAtTime    (* seq/sequence.py:24 *)
| PyValueError       (* builtin ValueError *)
| PyTypeError
| PyKeyError
| PyIndexError
| PyAttributeError
| PyAssertionError
| PyZeroDivisionError
| PyRuntimeError
| CollisionException (* sim/__init__.py *)
| PyOther.           (* any other exception, e.g. raised by user code *)

Inductive result (A : Type) :=
| Ok (a : A)
| Err (e : exn).
Arguments Ok {A} a.
Arguments Err {A} e.

Definition bind {A B} (r : result A) (f : A -> result B) : result B :=
  match r with Ok a => f a | Err e => Err e end.

Definition rmap {A B} (f : A -> B) (r : result A) : result B :=
  match r with Ok a => Ok (f a) | Err e => Err e end.

Declare Scope res_scope.
Delimit Scope res_scope with res.
Notation "x <- r ;; k" := (bind r (fun x => k))
  (at level 61, r at next level, right associativity) : res_scope.
Notation "' p <- r ;; k" := (bind r (fun x => match x with p => k end))
  (at level 61, p pattern, r at next level, right associativity) : res_scope.
Notation "r ;;; k" := (bind r (fun _ => k))
  (at level 61, right associativity) : res_scope.

(** [assert c] in Python. *)
Definition assert (c : bool) : result unit :=
  if c then Ok tt else Err PyAssertionError.

(** A Python [for] loop whose body may raise, collecting one result each. *)
Fixpoint rmapM {A B} (f : A -> result B) (l : list A) : result (list B) :=
  match l with
  | [] => Ok []
  | x :: r => match f x with
              | Err e => Err e
              | Ok y => match rmapM f r with
                        | Err e => Err e
                        | Ok ys => Ok (y :: ys)
                        end
              end
  end.

(** A Python [for] loop threading a state through a body that may raise. *)
Fixpoint rfold {S A} (f : S -> A -> result S) (s : S) (l : list A) : result S :=
  match l with
  | [] => Ok s
  | x :: r => match f s x with
              | Err e => Err e
              | Ok s' => rfold f s' r
              end
  end.

Lemma rmapM_length {A B} (f : A -> result B) l ys :
  rmapM f l = Ok ys -> length ys = length l.
Proof.
  revert ys; induction l as [|x r IH]; cbn; intros ys H.
  - injection H as <-; reflexivity.
  - destruct (f x); [|discriminate]. destruct (rmapM f r); [|discriminate].
    injection H as <-; cbn; f_equal; apply IH; reflexivity.
Qed.

(** ** Python dicts: association lists in insertion order. *)
Section Assoc.
  Context {K V : Type} (eqb : K -> K -> bool).

  (** [d.get(k)] *)
  Fixpoint aget (d : list (K * V)) (k : K) : option V :=
    match d with
    | [] => None
    | (k', v) :: r => if eqb k' k then Some v else aget r k
    end.

  (** [d[k] = v]: overwrite in place, or append. *)
  Fixpoint aset (d : list (K * V)) (k : K) (v : V) : list (K * V) :=
    match d with
    | [] => [(k, v)]
    | (k', v') :: r => if eqb k' k then (k', v) :: r else (k', v') :: aset r k v
    end.

  (** [d.pop(k)] / [del d[k]] (on a present key). *)
  Fixpoint adel (d : list (K * V)) (k : K) : list (K * V) :=
    match d with
    | [] => []
    | (k', v') :: r => if eqb k' k then r else (k', v') :: adel r k
    end.

  (** [d[k]] with KeyError. *)
  Definition agetE (d : list (K * V)) (k : K) : result V :=
    match aget d k with Some v => Ok v | None => Err PyKeyError end.

  Definition akeys (d : list (K * V)) : list K := map fst d.
End Assoc.
