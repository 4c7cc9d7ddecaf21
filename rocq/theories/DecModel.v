(** Times as decimal numbers.

    SimTime is decimal.Decimal (sim_types.py:8), whose sums and differences are rounded to
    the 28 digits of the default context (ROUND_HALF_EVEN).  This file has those numbers
    and the simulator of SimulatorModel.v with its three sums and differences of times
    (simulator.py:162, 185, 269) computed in that way.  Comparisons of decimals are exact.
    Simplified: no signed zeros, no NaN (the default context raises InvalidOperation
    where one would come up), and no bound on exponents (the default context has
    999999). *)
From Coq Require Import QArith Qcanon ZArith List Bool Arith Lia.
From Verif Require Import Base Num SeqModel SimulatorModel.
Import ListNotations.
Open Scope Qc_scope.

(** *** decimal.Decimal *)

(** [DNum c e] is c * 10^e.  Used for SimTime, sim_types.py:8. *)
Inductive decimal := DNum (c e : Z) | DInf | DNegInf.

(** The number of digits of a coefficient, [len(str(c))] for c > 0.
    Used for the arithmetic of SimTime, sim_types.py:8. *)
Fixpoint ndigits_fuel (fuel : nat) (c : Z) : Z :=
  match fuel with
  | O => 0
  | S f => if Z.ltb c 1 then 0 else 1 + ndigits_fuel f (c / 10)
  end.
Definition ndigits (c : Z) : Z := ndigits_fuel (S (Z.to_nat (Z.log2 (Z.abs c)))) (Z.abs c).

(** getcontext().prec.  Used for the arithmetic of SimTime, sim_types.py:8. *)
Definition prec : Z := 28.

(** c / d to the nearest integer, the even one of two (ROUND_HALF_EVEN); c >= 0, d > 0.
    Used for the arithmetic of SimTime, sim_types.py:8. *)
Definition half_even (c d : Z) : Z :=
  let q := (c / d)%Z in
  let r := (c mod d)%Z in
  match Z.compare (2 * r) d with
  | Lt => q
  | Gt => q + 1
  | Eq => if Z.even q then q else q + 1
  end.

(** Decimal._fix: a coefficient with too many digits is rounded.  (When this gives 10^28,
    Python writes it as 10^27 with the next exponent: the same number.).
    Used for the arithmetic of SimTime, sim_types.py:8. *)
Definition fix_ (c e : Z) : decimal :=
  let k := (ndigits c - prec)%Z in
  if Z.leb k 0 then DNum c e else DNum (Z.sgn c * half_even (Z.abs c) (10 ^ k)) (e + k).

(** Decimal.__add__ and __sub__: both operands are brought to the smaller exponent.
    Used e.g. for simulator.py:162 and simulator.py:269. *)
Definition dec_add (x y : decimal) : result decimal :=
  match x, y with
  | DNum a i, DNum b j => let e := Z.min i j in Ok (fix_ (a * 10 ^ (i - e) + b * 10 ^ (j - e)) e)
  | DInf, DNegInf | DNegInf, DInf => Err PyOther          (* InvalidOperation *)
  | DInf, _ | _, DInf => Ok DInf
  | DNegInf, _ | _, DNegInf => Ok DNegInf
  end.
Definition dec_neg (x : decimal) : decimal := match x with DNum a i => DNum (- a) i | DInf => DNegInf | DNegInf => DInf end.
Definition dec_sub (x y : decimal) : result decimal := dec_add x (dec_neg y).

(** The number that a decimal stands for.  Used for SimTime, sim_types.py:8. *)
Definition pow10 (e : Z) : Qc := Q2Qc (Qpower (10 # 1) e).
Definition value (c e : Z) : Qc := qz c * pow10 e.
(** Decimal.__lt__ and the like compare exactly; infinities are at the ends.
    Used e.g. for simulator.py:269. *)
Definition dec_ltb (x y : decimal) : bool :=
  match x, y with
  | DNum a i, DNum b j => qltb (value a i) (value b j)
  | DNegInf, DNegInf | DInf, _ | _, DNegInf => false
  | _, _ => true
  end.
Definition dec_leb (x y : decimal) : bool := negb (dec_ltb y x).

(** A decimal for a number that has one: enough digits for its denominator.
    Used for SimTime, sim_types.py:8. *)
Definition to_dec (q : Qc) : decimal :=
  let k := Z.succ (Z.log2 (QDen (this q))) in
  DNum (Qnum (this q) * 10 ^ k / QDen (this q)) (- k).
Definition dec_value (r : result decimal) : Qc := match r with Ok (DNum c e) => value c e | _ => 0 end.
(** Sums and differences of the numbers of SimulatorModel.v as decimals.
    Used for simulator.py:162, simulator.py:185 and simulator.py:269. *)
Definition dplus (a b : Qc) : Qc := dec_value (dec_add (to_dec a) (to_dec b)).
Definition dminus (a b : Qc) : Qc := dec_value (dec_sub (to_dec a) (to_dec b)).

(** *** The simulator, with given sums and differences *)
Section Sim.
Variable W : world.
Variables add sub : Qc -> Qc -> Qc.

(** simulator.py:267-269. *)
Definition need_commands_with (s : st W) : bool :=
  match s_last (sm s) with
  | None => true
  | Some l => qleb (dt_commands (param s)) (sub (time s) l)
  end.
(** simulator.py:108-126. *)
Definition pre_update_with (s : st W) : result (st W) :=
  if need_commands_with s then
    match rmapM (observe (c_models (cx s))) (akeys (c_players (cx s))) with
    | Err e => Err e
    | Ok obs => Ok (upd_sm s (set_obs (sm s) (mkObs obs (time s))))
    end
  else Ok s.
(** simulator.py:132-152. *)
Definition update_player_with (t : Qc) (s : st W) (p : player) : result (st W) :=
  match dgetE (c_models (cx s)) p with Err e => Err e | Ok m0 =>
  match with_logger s p (log_state t (get_state W m0)) with Err e => Err e | Ok s1 =>
  match (if need_commands_with s1 then ask s1 p t else Ok s1) with Err e => Err e | Ok s2 =>
  match dgetE (s_cmds (sm s2)) p with Err e => Err e | Ok u =>
  match dgetE (c_models (cx s2)) p with Err e => Err e | Ok m =>
  match model_step W m u (dt (param s2)) with Err e => Err e | Ok m' =>
  Ok (mkSt (set_models (cx s2) (dset (c_models (cx s2)) p m')) (sm s2) (EMove p t u m m' :: ev s2))
  end end end end end end.
(** simulator.py:128-155. *)
Definition update_with (s : st W) : result (st W) :=
  let t := time s in
  match rfold (update_player_with t) s (akeys (c_players (cx s))) with
  | Err e => Err e
  | Ok s' => if need_commands_with s' then Ok (upd_sm s' (set_last (sm s') (Some t))) else Ok s'
  end.
(** simulator.py:185. *)
Definition past_collision_with (t : Qc) (first : option Qc) (after : Qc) : bool :=
  match first with None => false | Some f => qltb (add f after) t end.
(** simulator.py:174-195. *)
Definition termination_with (c : ctx W) : bool :=
  let cond := qltb (max_sim_time (g_param (c_cfg c))) (c_time c)
              || past_collision_with (c_time c) (c_first c) (after_collision (g_param (c_cfg c)))
              || match c_players c with [] => true | _ => false end in
  if negb cond then
    match g_missions (c_cfg c) with
    | [] => false
    | ms => forallb (fun pn => negb (dmem (c_players c) pn)) (akeys ms)
    end
  else cond.
(** simulator.py:157-172. *)
Definition post_update_with (s : st W) : result (st W) :=
  let s1 := upd_cx s (set_time (cx s) (add (time s) (dt (param s)))) in
  match remove_finished s1 with Err e => Err e | Ok s2 =>
  let s3 := upd_cx s2 (set_term (cx s2) (termination_with (cx s2))) in
  if c_term (cx s3) then Ok s3
  else match check_env s3 with Err e => Err e | Ok s4 => check_players s4 end
  end.
(** simulator.py:100-102. *)
Definition step_with (s : st W) : result (st W) :=
  match pre_update_with s with Err e => Err e | Ok s1 =>
  match update_with s1 with Err e => Err e | Ok s2 => post_update_with s2 end end.
Fixpoint loop_with (fuel : nat) (s : st W) : option (result (st W)) :=
  if c_term (cx s) then Some (Ok s)
  else match fuel with
       | O => None
       | S f => match step_with s with Err e => Some (Err e) | Ok s' => loop_with f s' end
       end.
(** simulator.py:82-106. *)
Definition run_with (fuel : nat) (m : simulator W) (c : ctx W) : option (result (st W)) :=
  match init_run c m with
  | Err e => Some (Err e)
  | Ok s0 => match loop_with fuel s0 with
             | None => None
             | Some (Err e) => Some (Err e)
             | Some (Ok s) => Some (write_logs s)
             end
  end.
End Sim.

(** run with times that are decimals.  run, simulator.py:82-106. *)
Definition run_decimal {W} := run_with W dplus dminus.
