(** Specifications used in the statements of SeqProps: what a reader needs to
    know besides the model's API functions. *)
From Coq Require Import QArith Qcanon ZArith List Bool Arith Lia Sorted.
From Verif Require Import Base Num SeqModel.
Import ListNotations.
Open Scope Qc_scope.

(** The number denoted by a timestamp, if it is a finite number. *)
Definition stamp_val (s : stamp) : option Qc :=
  match s with
  | SDec q => Some q | SInt z => Some (qz z) | SFlt (Fin q) => Some q | _ => None
  end.

(** The last element of a list. *)
Definition last_of {A} (l : list A) : option A := nth_error l (length l - 1).

(** [v] is the value of the latest sample stamped at or before [t]. *)
Definition is_prev_sample {X} (s : seq X) (t : Qc) (v : X) : Prop :=
  exists i ti, nth_error (tss s) i = Some ti /\ nth_error (vals s) i = Some v /\
    ti <= t /\ (forall j tj, nth_error (tss s) j = Some tj -> tj <= t -> (j <= i)%nat).

(** Closed time window. *)
Definition in_window (a b : Qc) (t : Qc) : bool := qleb a t && qleb t b.

(** Samples whose image under [f] is not None, with that image. *)
Definition keep {X Y} (f : X -> option Y) (l : list (Qc * X)) : list (Qc * Y) :=
  flat_map (fun '(t, v) => match f v with Some y => [(t, y)] | None => [] end) l.

(** The interpolation contract, independent of the search. *)
Inductive interp_rel {X} (mulX : X -> Qc -> X) (addX : X -> X -> X) (s : seq X) (t : Qc) : X -> Prop :=
| ir_before t0 v : nth_error (tss s) 0 = Some t0 -> t <= t0 -> nth_error (vals s) 0 = Some v ->
    interp_rel mulX addX s t v
| ir_after t1 v : last_of (tss s) = Some t1 -> t1 <= t -> last_of (vals s) = Some v ->
    nth_error (tss s) 0 <> Some t ->
    interp_rel mulX addX s t v
| ir_inside i ta tb va vb :
    nth_error (tss s) i = Some ta -> nth_error (tss s) (S i) = Some tb ->
    nth_error (vals s) i = Some va -> nth_error (vals s) (S i) = Some vb ->
    ta <= t -> t < tb -> (i <> 0%nat \/ ta < t) ->
    interp_rel mulX addX s t
      (addX (mulX va (1 - (t - ta) / (tb - ta))) (mulX vb ((t - ta) / (tb - ta)))).

(** Interpolation of number-valued sequences. *)
Notation interpQ := (at_interp Qcmult Qcplus).

(** Trapezoid area under the samples. *)
Fixpoint area (l : list (Qc * Qc)) : Qc :=
  match l with
  | (t0, v0) :: (((t1, v1) :: _) as r) => (t1 - t0) * (v0 + v1) / qz 2 + area r
  | _ => 0
  end.

(** Two consecutive samples of a sequence. *)
Definition adjacent {X} (s : seq X) (t0 : Qc) (v0 : X) (t1 : Qc) (v1 : X) : Prop :=
  exists i, nth_error (iter s) i = Some (t0, v0) /\ nth_error (iter s) (S i) = Some (t1, v1).

(** Every sequence a caller can get hold of with the API of sequence.py. *)
Inductive obtainable : forall X : Type, seq X -> Prop :=
| ob_new X ty ts (vs : list X) s : new_seq ty ts vs = Ok s -> obtainable X s
| ob_sub X (s s' : seq X) a b : obtainable X s -> get_subsequence s a b = Ok s' -> obtainable X s'
| ob_shift X (s s' : seq X) d : obtainable X s -> shift_timestamps s d = Ok s' -> obtainable X s'
| ob_trans X Y (f : X -> option Y) s s' : obtainable X s -> transform_values f s = Ok s' -> obtainable Y s'
| ob_build X (b : builder X) s : as_sequence b = Ok s -> obtainable X s.
Arguments obtainable {X} _.

(** Builder histories: what a caller does and sees. *)
Inductive bop (X : Type) := BAdd (t : Qc) (v : X) | BSnap.
Arguments BAdd {X} t v. Arguments BSnap {X}.
Inductive bout (X : Type) := BAdded | BRejected | BSeq (l : list (Qc * X)) | BFailed.
Arguments BAdded {X}. Arguments BRejected {X}. Arguments BSeq {X} l. Arguments BFailed {X}.

(** One call on the modelled builder (an exception leaves it unchanged). *)
Definition b_step {X} (b : builder X) (o : bop X) : builder X * bout X :=
  match o with
  | BAdd t v => match b_add b t v with Ok b' => (b', BAdded) | Err _ => (b, BRejected) end
  | BSnap => match as_sequence b with Ok s => (b, BSeq (iter s)) | Err _ => (b, BFailed) end
  end.

(** The abstract builder: a list of accepted samples. *)
Definition spec_step {X} (acc : list (Qc * X)) (o : bop X) : list (Qc * X) * bout X :=
  match o with
  | BAdd t v => if forallb (fun p => qltb (fst p) t) acc then (acc ++ [(t, v)], BAdded)
                else (acc, BRejected)
  | BSnap => (acc, BSeq acc)
  end.

Fixpoint trace {S O R} (step : S -> O -> S * R) (s : S) (ops : list O) : list R :=
  match ops with
  | [] => []
  | o :: r => snd (step s o) :: trace step (fst (step s o)) r
  end.
