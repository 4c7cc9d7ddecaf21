(** Model of src/dg_commons/seq/sequence.py and src/dg_commons/seq/seq_op.py. *)
From Coq Require Import QArith Qcanon ZArith List Bool Arith Lia.
From Verif Require Import Base Num.
Import ListNotations.
Open Scope Qc_scope.

(** * Construction on arbitrary Python timestamps *)

(** A Python number: finite, infinite or NaN.  Used for [stamp], sequence.py:21. *)
Inductive xnum := Fin (q : Qc) | PInf | NInf | NaN.

(** A value passed as timestamp (sequence.py:21, [Timestamp = Union[D, float,
    int]]); [SOther] is anything else.  Decimal infinities and NaNs are left
    out: their comparison raises InvalidOperation. *)
Inductive stamp :=
| SDec (q : Qc)      (* decimal.Decimal, finite *)
| SInt (z : Z)
| SFlt (x : xnum)
| SOther.

(** Used for [ctor], sequence.py:46-64. *)
Definition is_timestamp (s : stamp) : bool :=
  match s with SOther => false | _ => true end.

(** Python's [a - b] on float values.  Used for [check_steps], sequence.py:54-57. *)
Definition xsub (a b : xnum) : xnum :=
  match a, b with
  | NaN, _ | _, NaN => NaN
  | Fin p, Fin q => Fin (p - q)
  | PInf, PInf | NInf, NInf => NaN
  | PInf, _ => PInf
  | NInf, _ => NInf
  | Fin _, PInf => NInf
  | Fin _, NInf => PInf
  end.

(** Python's [dt <= 0]: False for NaN.  Used for [check_steps], sequence.py:54-57. *)
Definition xle0 (a : xnum) : bool :=
  match a with Fin q => qleb q 0 | NInf => true | PInf | NaN => false end.

(** Python's [t1 - t0] on timestamps: Decimal with float raises TypeError.
    Used for [check_steps], sequence.py:54-57. *)
Definition stamp_sub (a b : stamp) : result xnum :=
  match a, b with
  | SDec p, SDec q => Ok (Fin (p - q))
  | SDec p, SInt z => Ok (Fin (p - qz z))
  | SInt z, SDec q => Ok (Fin (qz z - q))
  | SInt y, SInt z => Ok (Fin (qz y - qz z))
  | SInt z, SFlt x => Ok (xsub (Fin (qz z)) x)
  | SFlt x, SInt z => Ok (xsub x (Fin (qz z)))
  | SFlt x, SFlt y => Ok (xsub x y)
  | SDec _, SFlt _ | SFlt _, SDec _ => Err PyTypeError
  | SOther, _ | _, SOther => Err PyTypeError
  end.

(** The loop of sequence.py:54-57. *)
Fixpoint check_steps (ts : list stamp) : result unit :=
  match ts with
  | a :: ((b :: _) as r) =>
      match stamp_sub b a with
      | Err e => Err e
      | Ok dt => if xle0 dt then Err ZValueError else check_steps r
      end
  | _ => Ok tt
  end.

(** Used for [ctor], sequence.py:46-64. *)
Definition is_dec (s : stamp) : bool := match s with SDec _ => true | _ => false end.
Definition is_num (s : stamp) : bool :=
  match s with SInt _ | SFlt _ => true | _ => false end.

(** DgSampledSequence.__post_init__, sequence.py:46-64.  [checks] is
    DgCommonsConstants.checks.  Returns the stored tuples. *)
Definition ctor {X} (checks : bool) (ts : list stamp) (vs : list X)
  : result (list stamp * list X) :=
  if checks then
    if negb (length ts =? length vs)%nat then Err ZValueError
    else if negb (forallb is_timestamp ts) then Err ZValueError
    else match check_steps ts with
         | Err e => Err e
         | Ok _ => if existsb is_dec ts && existsb is_num ts then Err ZValueError
                   else Ok (ts, vs)
         end
  else Ok (ts, vs).

(** * Sequences over one finite number family

    From here on timestamps are finite and of one family (all Decimal or all
    int/float), which is what the constructor leaves apart from NaN/infinite
    floats; they are modelled by their value. *)

(** A DgSampledSequence (sequence.py:28-44).  [typed] says whether the object
    was created through a subscripted class, [DgSampledSequence[T](...)], so
    that [__orig_class__] and therefore [XT] (66-68) exist. *)
Record seq (X : Type) := mkSeq { tss : list Qc; vals : list X; typed : bool }.
Arguments mkSeq {X} tss vals typed.
Arguments tss {X} s.
Arguments vals {X} s.
Arguments typed {X} s.

(** sequence.py:54-57 on finite stamps. *)
Fixpoint steps_ok (ts : list Qc) : bool :=
  match ts with
  | a :: ((b :: _) as r) => negb (qleb (b - a) 0) && steps_ok r
  | _ => true
  end.

(** Construction, sequence.py:46-64, with checks on. *)
Definition new_seq {X} (typed : bool) (ts : list Qc) (vs : list X) : result (seq X) :=
  if negb (length ts =? length vs)%nat then Err ZValueError
  else if steps_ok ts then Ok (mkSeq ts vs typed)
  else Err ZValueError.

(** [tuple.index(t)] used in sequence.py:89; [None] is ValueError. *)
Fixpoint index_of (ts : list Qc) (t : Qc) : option nat :=
  match ts with
  | [] => None
  | a :: r => if qeqb a t then Some O
              else match index_of r t with Some i => Some (S i) | None => None end
  end.

(** [self._values[i]] with a non-negative index: IndexError out of range.
    Used for [at_], sequence.py:86-93; [at_interp], sequence.py:109-120. *)
Definition item {X} (vs : list X) (i : nat) : result X :=
  match nth_error vs i with Some v => Ok v | None => Err PyIndexError end.

(** [self._values[i-1]] where [i] may be 0: index -1 is the last element.
    Used for [at_or_previous], sequence.py:95-107; [at_interp], sequence.py:109-120. *)
Definition item_pred {X} (vs : list X) (i : nat) : result X :=
  match i with
  | O => match rev vs with [] => Err PyIndexError | v :: _ => Ok v end
  | S j => item vs j
  end.

(** [at], sequence.py:86-93. *)
Definition at_ {X} (s : seq X) (t : Qc) : result X :=
  match index_of (tss s) t with
  | Some i => item (vals s) i
  | None => Err UndefinedAtTime
  end.

(** get_start, sequence.py:122-128. *)
Definition get_start {X} (s : seq X) : result Qc :=
  match tss s with [] => Err ZValueError | t :: _ => Ok t end.

(** get_end, sequence.py:130-136. *)
Definition get_end {X} (s : seq X) : result Qc :=
  match rev (tss s) with [] => Err ZValueError | t :: _ => Ok t end.

(** The stdlib loop of [bisect.bisect_right(a, x)]:
    while lo < hi: mid=(lo+hi)//2; if x < a[mid]: hi=mid else: lo=mid+1.
    [fuel] bounds the iterations (the interval halves, [length a] suffices);
    [None] is "out of fuel", shown unreachable.
    Used for [at_or_previous], sequence.py:95-107; [at_interp], sequence.py:109-120. *)
Fixpoint bisect_right_loop (fuel : nat) (a : list Qc) (x : Qc) (lo hi : nat) : option nat :=
  if (lo <? hi)%nat then
    match fuel with
    | O => None
    | S f =>
        let mid := ((lo + hi) / 2)%nat in
        if qltb x (nth mid a 0) then bisect_right_loop f a x lo mid
        else bisect_right_loop f a x (S mid) hi
    end
  else Some lo.

(** [bisect.bisect_left(a, x)]: if a[mid] < x: lo=mid+1 else: hi=mid.
    Used for [get_subsequence], sequence.py:155-164. *)
Fixpoint bisect_left_loop (fuel : nat) (a : list Qc) (x : Qc) (lo hi : nat) : option nat :=
  if (lo <? hi)%nat then
    match fuel with
    | O => None
    | S f =>
        let mid := ((lo + hi) / 2)%nat in
        if qltb (nth mid a 0) x then bisect_left_loop f a x (S mid) hi
        else bisect_left_loop f a x lo mid
    end
  else Some lo.

(** Used for [at_or_previous], sequence.py:95-107; [at_interp], sequence.py:109-120; [get_subsequence], sequence.py:155-164. *)
Definition bisect_right (a : list Qc) (x : Qc) : option nat :=
  bisect_right_loop (length a) a x 0 (length a).
Definition bisect_left (a : list Qc) (x : Qc) : option nat :=
  bisect_left_loop (length a) a x 0 (length a).

(** at_or_previous, sequence.py:95-107.  [PyOther] marks the unreachable
    out-of-fuel case of bisect. *)
Definition at_or_previous {X} (s : seq X) (t : Qc) : result X :=
  match get_start s with
  | Err e => Err e
  | Ok t0 =>
      if qltb t t0 then Err UndefinedAtTime
      else match at_ s t with
           | Ok v => Ok v
           | Err UndefinedAtTime =>
               match bisect_right (tss s) t with
               | None => Err PyOther
               | Some i => item_pred (vals s) i
               end
           | Err e => Err e
           end
  end.

(** at_interp, sequence.py:109-120.  The value type supplies [x * c] and
    [x + y] ([mulX], [addX]).  [float(...)] conversions are exact here.
    A zero denominator raises ZeroDivisionError. *)
Definition at_interp {X} (mulX : X -> Qc -> X) (addX : X -> X -> X)
    (s : seq X) (t : Qc) : result X :=
  match get_start s with
  | Err e => Err e
  | Ok t0 =>
    if qleb t t0 then item (vals s) 0
    else match get_end s with
    | Err e => Err e
    | Ok t1 =>
      if qleb t1 t then item_pred (vals s) 0
      else match bisect_right (tss s) t with
      | None => Err PyOther
      | Some i =>
        match item_pred (tss s) i, item (tss s) i with
        | Err e, _ | _, Err e => Err e
        | Ok ta, Ok tb =>
          if qeqb (tb - ta) 0 then Err PyZeroDivisionError
          else
            let scale := (t - ta) / (tb - ta) in
            match item_pred (vals s) i, item (vals s) i with
            | Err e, _ | _, Err e => Err e
            | Ok va, Ok vb => Ok (addX (mulX va (1 - scale)) (mulX vb scale))
            end
        end
      end
    end
  end.

(** __iter__ (174-175) and __len__ (177-178). *)
Definition iter {X} (s : seq X) : list (Qc * X) := combine (tss s) (vals s).
Definition seq_len {X} (s : seq X) : nat := length (tss s).

(** transform_values, sequence.py:145-153; [f v = None] is Python's None. *)
Definition transform_values {X Y} (f : X -> option Y) (s : seq X) : result (seq Y) :=
  let kept :=
    flat_map (fun '(t, v) => match f v with Some y => [(t, y)] | None => [] end) (iter s) in
  new_seq true (map fst kept) (map snd kept).

(** Python slice [l[i:j]] for non-negative [i], [j].
    Used for [get_subsequence], sequence.py:155-164. *)
Definition slice {A} (i j : nat) (l : list A) : list A := firstn (j - i) (skipn i l).

(** get_subsequence, sequence.py:155-164. *)
Definition get_subsequence {X} (s : seq X) (a b : Qc) : result (seq X) :=
  if qleb a b then
    match bisect_left (tss s) a, bisect_right (tss s) b with
    | Some i, Some j => new_seq true (slice i j (tss s)) (slice i j (vals s))
    | _, _ => Err PyOther
    end
  else Err PyAssertionError.

(** shift_timestamps, sequence.py:166-172. *)
Definition shift_timestamps {X} (s : seq X) (dt : Qc) : result (seq X) :=
  new_seq true (map (fun t => t + dt) (tss s)) (vals s).

(** IterateDT, sequence.py:181-187. *)
Record iterate_dt (X : Type) := mkIt
  { it_t0 : Qc; it_t1 : Qc; it_dt : Qc; it_v0 : X; it_v1 : X }.
Arguments mkIt {X}. Arguments it_t0 {X}. Arguments it_t1 {X}. Arguments it_dt {X}.
Arguments it_v0 {X}. Arguments it_v1 {X}.

(** The loop of iterate_with_dt, sequence.py:194-202. *)
Fixpoint adj {X} (l : list (Qc * X)) : list (iterate_dt X) :=
  match l with
  | (t0, v0) :: (((t1, v1) :: _) as r) => mkIt t0 t1 (t1 - t0) v0 v1 :: adj r
  | _ => []
  end.

(** iterate_with_dt, sequence.py:190-202.  Reading [sequence.XT] in the loop
    body raises AttributeError on a sequence built without a type argument.
    The generator is modelled by the list it would yield. *)
Definition iterate_with_dt {X} (s : seq X) : result (list (iterate_dt X)) :=
  let l := adj (iter s) in
  match l with
  | [] => Ok []
  | _ => if typed s then Ok l else Err PyAttributeError
  end.

(** * Builder, sequence.py:208-230 *)
Record builder (X : Type) := mkB { b_ts : list Qc; b_vs : list X }.
Arguments mkB {X}. Arguments b_ts {X}. Arguments b_vs {X}.

(** Default construction, sequence.py:210-211. *)
Definition b_empty {X} : builder X := mkB [] [].

(** add, sequence.py:214-220. *)
Definition b_add {X} (b : builder X) (t : Qc) (v : X) : result (builder X) :=
  match rev (b_ts b) with
  | last :: _ => if qleb t last then Err ZValueError
                 else Ok (mkB (b_ts b ++ [t]) (b_vs b ++ [v]))
  | [] => Ok (mkB (b_ts b ++ [t]) (b_vs b ++ [v]))
  end.

(** as_sequence, sequence.py:229-230, for a builder made by
    [DgSampledSequenceBuilder[X]()].  [tuple(...)] copies, so the result is a
    value. *)
Definition as_sequence {X} (b : builder X) : result (seq X) :=
  new_seq true (b_ts b) (b_vs b).

(** * seq_op.py *)

(** [it.v0 + it.v1) / 2.0 * it.dt], seq_op.py:26-27. *)
Definition trapz (it : iterate_dt Qc) : Qc := (it_v0 it + it_v1 it) / qz 2 * it_dt it.

(** The loop of seq_integrate, seq_op.py:22-29. *)
Fixpoint integ_loop (total : Qc) (l : list (iterate_dt Qc)) : list (Qc * Qc) :=
  match l with
  | [] => []
  | it :: r => let total' := total + trapz it in (it_t1 it, total') :: integ_loop total' r
  end.

(** seq_integrate, seq_op.py:14-31 ([not sequence] is [len == 0]). *)
Definition seq_integrate (s : seq Qc) : result (seq Qc) :=
  if (seq_len s =? 0)%nat then Err PyValueError
  else if (length (vals s) =? 1)%nat then Ok s
  else match iterate_with_dt s with
       | Err e => Err e
       | Ok its => let l := integ_loop 0 its in new_seq true (map fst l) (map snd l)
       end.

(** seq_differentiate, seq_op.py:34-45. *)
Definition seq_differentiate (s : seq Qc) : result (seq Qc) :=
  if (seq_len s =? 0)%nat then Err PyValueError
  else match iterate_with_dt s with
       | Err e => Err e
       | Ok its =>
           if existsb (fun it => qeqb (it_dt it) 0) its then Err PyZeroDivisionError
           else new_seq true (map (fun it => it_t0 it + it_dt it / qz 2) its)
                             (map (fun it => (it_v1 it - it_v0 it) / it_dt it) its)
       end.

(** toolz.accumulate(add, values): running fold without initial value.
    Used for [seq_accumulate], seq_op.py:48-50. *)
Fixpoint accum_loop (acc : Qc) (l : list Qc) : list Qc :=
  match l with [] => [] | x :: r => (acc + x) :: accum_loop (acc + x) r end.
Definition accumulate (l : list Qc) : list Qc :=
  match l with [] => [] | x :: r => x :: accum_loop x r end.

(** seq_accumulate, seq_op.py:48-50: needs [sequence.XT].  toolz' accumulate on
    an empty sequence yields nothing. *)
Definition seq_accumulate (s : seq Qc) : result (seq Qc) :=
  if typed s then new_seq true (tss s) (accumulate (vals s))
  else Err PyAttributeError.

(** find_crossings, seq_op.py:53-66.  [np.signbit] of a non-zero rational is
    [x < 0]; float negative zeros are not modelled.  On Decimal
    timestamps the product of a numpy float with a Decimal raises TypeError:
    this model is for float/int timestamps. *)
Fixpoint crossings (thr : Qc) (l : list (Qc * Qc)) : list Qc :=
  match l with
  | (t0, v0) :: (((t1, v1) :: _) as r) =>
      let a := v0 - thr in
      let b := v1 - thr in
      if xorb (qltb a 0) (qltb b 0)
      then (t0 + a / (a - b) * (t1 - t0)) :: crossings thr r
      else crossings thr r
  | _ => []
  end.
Definition find_crossings (s : seq Qc) (thr : Qc) : list Qc := crossings thr (iter s).
