(** Interpolation and upsampling in binary64 arithmetic.

    The other files compute with exact numbers.  This one models sequence.py:54-57 and
    109-120 and trajectory.py:109-131 with Python's floats: IEEE 754 binary64, rounding
    to nearest, ties to even, with infinities and (one) NaN, as Flocq's
    BinarySingleNaN has them.  Values of sequences are floats: the operators of states
    work on every field separately (DataModel.v).  Timestamps are floats or decimals;
    int timestamps are left out. *)
From Coq Require Import ZArith List Bool.
From Flocq Require Import Core IEEE754.BinarySingleNaN.
From Verif Require Import Base Num SeqModel.
From Verif Require DecModel.
Import ListNotations.

(** *** Python's float *)
(** Used for [steps_f], sequence.py:54-57; [mix], sequence.py:120; [inserted], trajectory.py:122-124. *)
Definition fl := binary_float 53 1024.
Definition prec53 : Prec_gt_0 53 := eq_refl.
Definition emax1024 : Prec_lt_emax 53 1024 := eq_refl.

(** float.__add__, __sub__, __mul__; __truediv__ raises ZeroDivisionError.
    Used for [mix], sequence.py:120; [inserted], trajectory.py:122-124; [steps_f], sequence.py:54-57. *)
Definition fadd (x y : fl) : fl := @Bplus 53 1024 prec53 emax1024 mode_NE x y.
Definition fsub (x y : fl) : fl := @Bminus 53 1024 prec53 emax1024 mode_NE x y.
Definition fmul (x y : fl) : fl := @Bmult 53 1024 prec53 emax1024 mode_NE x y.
Definition fzero : fl := B754_zero false.
Definition fdiv (x y : fl) : result fl :=
  if Beqb y fzero then Err PyZeroDivisionError else Ok (@Bdiv 53 1024 prec53 emax1024 mode_NE x y).
(** [x <= y]: False if one is NaN.
    Used for [steps_f], sequence.py:54-57; [at_interp_f], sequence.py:109-120. *)
Definition fle (x y : fl) : bool := Bleb x y.
(** float(z), for the small integers that occur.
    Used for [inserted], trajectory.py:122-124; [mix], sequence.py:120. *)
Definition fint (z : Z) : fl := @binary_normalize 53 1024 prec53 emax1024 mode_NE z 0 false.
Definition fone : fl := fint 1.

(** The float nearest to n / d, as float(Decimal) gives it.
    Used for [weight_d], sequence.py:119. *)
Definition fratio (n : Z) (d : positive) : fl :=
  match n with
  | Z0 => fzero
  | Zpos p => SF2B _ (proj1 (@Bdiv_correct_aux 53 1024 prec53 emax1024 mode_NE false p 0 false d 0))
  | Zneg p => SF2B _ (proj1 (@Bdiv_correct_aux 53 1024 prec53 emax1024 mode_NE true p 0 false d 0))
  end.
Definition fdec (x : DecModel.decimal) : fl :=
  match x with
  | DecModel.DNum c e => if Z.leb 0 e then fratio (c * 10 ^ e) 1 else fratio c (Z.to_pos (10 ^ (- e)))
  | DecModel.DInf => B754_infinity false
  | DecModel.DNegInf => B754_infinity true
  end.

(** *** DgSampledSequence with float timestamps *)
(** The loop of __post_init__, sequence.py:54-57. *)
Fixpoint steps_f (ts : list fl) : bool :=
  match ts with
  | a :: ((b :: _) as r) => negb (fle (fsub b a) fzero) && steps_f r
  | _ => true
  end.

(** bisect_right: on a sorted list, the number of leading elements <= t.
    Used for [at_interp_f], sequence.py:109-120. *)
Fixpoint bisect_f (ts : list fl) (t : fl) : nat :=
  match ts with [] => O | a :: r => if fle a t then S (bisect_f r t) else O end.

(** [va * (1 - scale) + vb * scale], sequence.py:120. *)
Definition mix (va vb scale : fl) : fl := fadd (fmul va (fsub fone scale)) (fmul vb scale).

(** [scale], sequence.py:119; float(t) is t. *)
Definition weight_f (ta tb t : fl) : result fl := fdiv (fsub t ta) (fsub tb ta).

(** at_interp, sequence.py:109-120. *)
Definition at_interp_f (ts vs : list fl) (t : fl) : result fl :=
  match ts with
  | [] => Err ZValueError
  | t0 :: _ =>
      if fle t t0 then item vs 0
      else if fle (last ts t0) t then item_pred vs 0
      else
        let i := bisect_f ts t in
        match item_pred ts i, item ts i with
        | Ok ta, Ok tb =>
            match weight_f ta tb t with
            | Err e => Err e
            | Ok scale => match item_pred vs i, item vs i with Ok va, Ok vb => Ok (mix va vb scale) | _, _ => Err PyIndexError end
            end
        | _, _ => Err PyIndexError
        end
  end.

(** *** The same with Decimal timestamps *)
(** Used for sequence.py:109-120. *)
Fixpoint bisect_d (ts : list DecModel.decimal) (t : DecModel.decimal) : nat :=
  match ts with [] => O | a :: r => if DecModel.dec_leb a t then S (bisect_d r t) else O end.

(** sequence.py:119: the difference in the denominator is one of decimals, the one in the
    numerator one of floats. *)
Definition weight_d (ta tb t : DecModel.decimal) : result fl :=
  match DecModel.dec_sub tb ta with Err e => Err e | Ok d => fdiv (fsub (fdec t) (fdec ta)) (fdec d) end.

(** sequence.py:109-120, with Decimal timestamps. *)
Definition at_interp_d (ts : list DecModel.decimal) (vs : list fl) (t : DecModel.decimal) : result fl :=
  match ts with
  | [] => Err ZValueError
  | t0 :: _ =>
      if DecModel.dec_leb t t0 then item vs 0
      else if DecModel.dec_leb (last ts t0) t then item_pred vs 0
      else
        let i := bisect_d ts t in
        match item_pred ts i, item ts i with
        | Ok ta, Ok tb =>
            match weight_d ta tb t with
            | Err e => Err e
            | Ok scale => match item_pred vs i, item vs i with Ok va, Ok vb => Ok (mix va vb scale) | _, _ => Err PyIndexError end
            end
        | _, _ => Err PyIndexError
        end
  end.

(** *** Trajectory.upsample, trajectory.py:109-131, on float timestamps *)
(** [i * dt + t_previous] for i in range(1, n + 1), trajectory.py:122-124. *)
Definition inserted (ta tb : fl) (n : nat) : result (list fl) :=
  match fdiv (fsub tb ta) (fint (Z.of_nat n + 1)) with
  | Err e => Err e
  | Ok dt => Ok (map (fun i => fadd (fmul (fint (Z.of_nat i)) dt) ta) (List.seq 1 n))
  end.
(** at, sequence.py:86-93: tuple.index compares with ==. *)
Fixpoint at_f (ts vs : list fl) (t : fl) : result fl :=
  match ts, vs with
  | a :: r, v :: w => if Beqb a t then Ok v else at_f r w t
  | [], _ => Err UndefinedAtTime
  | a :: r, [] => if Beqb a t then Err PyIndexError else at_f r [] t
  end.
(** The loop over the pairs of subsequent timestamps and the last element,
    trajectory.py:119-131; [ts], [vs] are those of the trajectory, [l] the timestamps that
    are still to be done. *)
Fixpoint up_points (n : nat) (ts vs l : list fl) : result (list (fl * fl)) :=
  match l with
  | [] => Err PyIndexError                 (* timestamps[-1] *)
  | [a] => match at_f ts vs a with Err e => Err e | Ok v => Ok [(a, v)] end
  | a :: ((b :: _) as r) =>
      match at_f ts vs a with Err e => Err e | Ok v =>
      match inserted a b n with Err e => Err e | Ok us =>
      match rmapM (at_interp_f ts vs) us with Err e => Err e | Ok ws =>
      match up_points n ts vs r with Err e => Err e | Ok q => Ok ((a, v) :: app (combine us ws) q) end end end end
  end.
(** upsample, with the check of the constructor of the result.  trajectory.py:109-131. *)
Definition upsample_f (ts vs : list fl) (n : nat) : result (list fl * list fl) :=
  match up_points n ts vs ts with
  | Err e => Err e
  | Ok q => if steps_f (map fst q) then Ok (map fst q, map snd q) else Err ZValueError
  end.
