(** One update of a model as the integration of its equations of motion,
    coordinate by coordinate. *)
From Coq Require Import Reals List.
From Verif Require Import DynModel.
Import ListNotations.
Open Scope R_scope.

(** Coordinate [i] of a state, in the order of the fields of its class. *)
Definition v_co (i : nat) (s : vst) : R := nth i [v_x s; v_y s; v_psi s; v_vx s; v_delta s] 0.
Definition d_co (i : nat) (s : dst) : R := nth i [d_x s; d_y s; d_psi s; d_vx s; d_vy s; d_dpsi s; d_delta s] 0.
Definition s_co (i : nat) (s : st6) : R := nth i [s_x s; s_y s; s_psi s; s_vx s; s_vy s; s_dpsi s] 0.
Definition r_co (i : nat) (s : st8) : R := nth i [r_x s; r_y s; r_psi s; r_vx s; r_vy s; r_dpsi s; r_ang s; r_m s] 0.
Definition w_co (i : nat) (s : st3) : R := nth i [w_x s; w_y s; w_psi s] 0.

Section Integrates.
Context {X : Type} (co : nat -> X -> R).
(** The sum of the [i]-th coordinates of the rates [ks] with weights [cs]. *)
Definition weighted (i : nat) (cs : list R) (ks : list X) : R :=
  fold_right Rplus 0 (map (fun ck => fst ck * co i (snd ck)) (combine cs ks)).
(** [z] is [x] moved for a time [h] with the weighted rates. *)
Definition goes (h : R) (cs : list R) (x : X) (ks : list X) (z : X) : Prop :=
  forall i, co i z = co i x + h * weighted i cs ks.

(** [f] gives the rate of change of a state.  The rates of a step of length
    [h]: the rate number [i] is that of [x] moved with the rates before it. *)
Definition rates (f : X -> option X) (rows : list (list R)) (h : R) (x : X) (ks : list X) : Prop :=
  length ks = length rows /\
  forall i row, nth_error rows i = Some row -> exists z, goes h row x (firstn i ks) z /\ f z = nth_error ks i.
(** Steps [hs] of the Runge-Kutta method [tab] from [x] lead to [y]. *)
Inductive integrates (f : X -> option X) (tab : list (list R) * list R) : X -> list R -> X -> Prop :=
| stays x : integrates f tab x [] x
| moves x h ks x1 hs y : rates f (fst tab) h x ks -> goes h (snd tab) x ks x1 -> integrates f tab x1 hs y ->
    integrates f tab x (h :: hs) y.
End Integrates.
