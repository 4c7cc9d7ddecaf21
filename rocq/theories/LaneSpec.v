(** Vocabulary of the statements on lanes. *)
From Coq Require Import Reals List Bool.
From Verif Require Import Base R2 GeoModel LaneModel.
Import ListNotations.
Open Scope R_scope.

(** Consecutive control points number [i] and [i + 1]. *)
Definition consecutive (cps : lanelet) (i : nat) (c0 c1 : ctrl) : Prop := nth_error cps i = Some c0 /\ nth_error cps (S i) = Some c1.
(** No two consecutive control points are in the same position. *)
Definition proper (cps : lanelet) : Prop := cps <> [] /\ forall i c0 c1, consecutive cps i c0 c1 -> t_p (cp_q c0) <> t_p (cp_q c1).
(** Within the tolerance of math.isclose (1e-9 relative, 1e-8 absolute). *)
Definition within_tolerance (x y : R) : Prop := Rabs (x - y) <= Rmax (/ 1000000000 * Rmax (Rabs x) (Rabs y)) (/ 100000000).

Definition exactly_one (a b c : bool) : Prop :=
  (a = true /\ b = false /\ c = false) \/ (a = false /\ b = true /\ c = false) \/ (a = false /\ b = false /\ c = true).

(** [answers keq maxsize calls cache]: the answers of a cached function to a series
    of calls; each call is given by its key and the function that an uncached call
    would evaluate at that time. *)
Fixpoint answers {K V} (keq : K -> K -> bool) (maxsize : nat) (calls : list ((K -> V) * K)) (c : cache (K := K) (V := V)) : list V :=
  match calls with
  | [] => []
  | (f, k) :: rest => let '(v, c') := cached_call keq maxsize f c k in v :: answers keq maxsize rest c'
  end.

(** [moves f speed]: at every parameter the curve [f] has a velocity of that norm. *)
Definition moves_at (f : R -> vec) (x speed : R) : Prop :=
  exists dx dy, derivable_pt_lim (fun y => fst (f y)) x dx /\ derivable_pt_lim (fun y => snd (f y)) x dy /\ vnorm (dx, dy) = speed.
