(** Specifications for PlanProps. *)
From Coq Require Import QArith Qcanon ZArith List Bool Arith.
From Verif Require Import Base Num SeqModel VehState TrajModel PlanModel.
Import ListNotations.
Open Scope Qc_scope.

(** [x] is one of the [n] evenly spaced values from [lo] to [hi]. *)
Definition on_grid (r : Qc * Qc * Z) (x : Qc) : Prop :=
  let '(lo, hi, n) := r in
  (n = 1%Z /\ x = lo) \/
  ((2 <= n)%Z /\ exists i, (0 <= i < n)%Z /\ x = lo + qz i / qz (n - 1) * (hi - lo)).

(** The states [s0 s1 ... sn] of repeated application of the dynamics with one
    constant command. *)
Inductive driven (f : dyn) (c : vcmd) (dt : Qc) : vstate -> list vstate -> Prop :=
| driven_end s : driven f c dt s [s]
| driven_step s s' l : f s c dt = Ok s' -> driven f c dt s' l -> driven f c dt s (s :: l).

(** A primitive of [n] steps of length [dt] from state [s] with command [c]. *)
Definition drives (f : dyn) (c : vcmd) (dt : Qc) (n : nat) (s : vstate) (t : traj) : Prop :=
  exists l, driven f c dt s l /\ length l = S n /\
    iter t = combine (map (fun k => qn k * dt) (List.seq 0 (S n))) l.

(** Command limits of a vehicle. *)
Definition in_limits (vp : vparams) (c : vcmd) : Prop :=
  vp_acc_lo vp <= vc_acc c /\ vc_acc c <= vp_acc_hi vp /\
  - vp_ddelta_max vp <= vc_ddelta c /\ vc_ddelta c <= vp_ddelta_max vp.

(** The initial states considered by generate(x0). *)
Definition start_state (p : gparam) (x0 : option vstate) (s : vstate) : Prop :=
  match x0 with
  | Some x => s = x
  | None => vs_x s = 0 /\ vs_y s = 0 /\ vs_psi s = 0 /\ on_grid (gp_a p) (vs_vx s) /\ on_grid (gp_b p) (vs_delta s)
  end.
