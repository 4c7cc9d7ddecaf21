(** Vocabulary of the statements on the dynamics. *)
From Coq Require Import Reals List.
From Verif Require Import Base R2 DataModel DynModel.
Open Scope R_scope.

Definition within (x lo hi : R) : Prop := lo <= x <= hi.

(** [f] is continuous on [0, T]. *)
Definition cont_on (f : R -> R) (T : R) : Prop :=
  forall t, 0 <= t <= T -> forall eps, 0 < eps -> exists d, 0 < d /\ forall s, 0 <= s <= T -> Rabs (s - t) < d -> Rabs (f s - f t) < eps.
(** The derivative of [f] from the right at [t] is [l]. *)
Definition right_deriv (f : R -> R) (t l : R) : Prop :=
  forall eps, 0 < eps -> exists d, 0 < d /\ forall h, 0 < h < d -> Rabs ((f (t + h) - f t) / h - l) < eps.
(** [f] is a solution of [f' = r] on [0, T]: continuous, and its derivative from the
    right is [r t] at every time before T.  The right-hand sides of the models jump when
    a limit is reached, so that two-sided derivatives need not exist there. *)
Definition evolves (f r : R -> R) (T : R) : Prop := cont_on f T /\ forall t, 0 <= t < T -> right_deriv f t (r t).

(** Exact motions of the models on [0, T] under a command signal. *)
Definition vehicle_motion g p (u : R -> vcm) (x : R -> vst) (T : R) : Prop :=
  let dx t := vehicle_dynamics g p (x t) (u t) in
  evolves (fun t => v_x (x t)) (fun t => v_x (dx t)) T /\ evolves (fun t => v_y (x t)) (fun t => v_y (dx t)) T /\ evolves (fun t => v_psi (x t)) (fun t => v_psi (dx t)) T /\
  evolves (fun t => v_vx (x t)) (fun t => v_vx (dx t)) T /\ evolves (fun t => v_delta (x t)) (fun t => v_delta (dx t)) T.
Definition motion6 (dx : R -> st6) (x : R -> st6) (T : R) : Prop :=
  evolves (fun t => s_x (x t)) (fun t => s_x (dx t)) T /\ evolves (fun t => s_y (x t)) (fun t => s_y (dx t)) T /\ evolves (fun t => s_psi (x t)) (fun t => s_psi (dx t)) T /\
  evolves (fun t => s_vx (x t)) (fun t => s_vx (dx t)) T /\ evolves (fun t => s_vy (x t)) (fun t => s_vy (dx t)) T /\ evolves (fun t => s_dpsi (x t)) (fun t => s_dpsi (dx t)) T.
Definition motion8 (dx : R -> st8) (x : R -> st8) (T : R) : Prop :=
  evolves (fun t => r_x (x t)) (fun t => r_x (dx t)) T /\ evolves (fun t => r_y (x t)) (fun t => r_y (dx t)) T /\ evolves (fun t => r_psi (x t)) (fun t => r_psi (dx t)) T /\
  evolves (fun t => r_vx (x t)) (fun t => r_vx (dx t)) T /\ evolves (fun t => r_vy (x t)) (fun t => r_vy (dx t)) T /\ evolves (fun t => r_dpsi (x t)) (fun t => r_dpsi (dx t)) T /\
  evolves (fun t => r_ang (x t)) (fun t => r_ang (dx t)) T /\ evolves (fun t => r_m (x t)) (fun t => r_m (dx t)) T.

(** Two histories of commands with the same integration steps. *)
Definition same_steps {U} (a b : list (U * list R)) : Prop := map snd a = map snd b.
(** After a collision the motion does not depend on the commands. *)
Definition deaf {X U} (P : plant X U) : Prop :=
  forall tab st h1 h2, same_steps h1 h2 -> updates P tab true st h1 = updates P tab true st h2.
