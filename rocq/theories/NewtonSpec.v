(** Vocabulary of the statements on forces, torques and the burned mass: laws of
    mechanics in the frame of the world, written down without the models. *)
From Coq Require Import Reals.
From Verif Require Import Base R2 DataModel DynModel DynSpec.
Open Scope R_scope.

(** The unit vector with the angle [a]. *)
Definition dir (a : R) : vec := (cos a, sin a).
(** The number of [lo, hi] nearest to [a]. *)
Definition clip (lo hi a : R) : R := Rmax lo (Rmin a hi).
(** The derivative of the vector [f] is [r]. *)
Definition changes (f r : R -> vec) (T : R) : Prop :=
  evolves (fun t => fst (f t)) (fun t => fst (r t)) T /\ evolves (fun t => snd (f t)) (fun t => snd (r t)) T.
(** The components along and across the heading [psi] of a vector, in the frame of the
    world. *)
Definition from_body (psi : R) (v : vec) : vec := (cos psi * fst v - sin psi * snd v, sin psi * fst v + cos psi * snd v).
(** The torque of a force that attacks at a point, both in the frame of the body. *)
Definition torque (at_ force : vec) : R := fst at_ * snd force - snd at_ * fst force.
(** Newton's second law for a body at [P] with the velocity [V], the mass [m] and the
    total force [F], all in the frame of the world. *)
Definition newton (P V : R -> vec) (m : R -> R) (F : R -> vec) (T : R) : Prop :=
  changes P V T /\ changes V (fun t => vscale (/ m t) (F t)) T.

(** Position and velocity in the frame of the world of the models with velocities along
    and across the heading. *)
Definition pos6 (s : st6) : vec := (s_x s, s_y s).
Definition vel6 (s : st6) : vec := from_body (s_psi s) (s_vx s, s_vy s).
Definition pos8 (s : st8) : vec := (r_x s, r_y s).
Definition vel8 (s : st8) : vec := from_body (r_psi s) (r_vx s, r_vy s).
(** The velocities of rockets are those of the frame of the world. *)
Definition world8 (s : st8) : vec := (r_vx s, r_vy s).
Definition posd (s : dst) : vec := (d_x s, d_y s).
Definition veld (s : dst) : vec := from_body (d_psi s) (d_vx s, d_vy s).

(** A motion of the dynamic vehicle with the derivatives [dx]. *)
Definition dyn_motion (g : vgeo) (p : vpar) (pf pr : pacejka) (collided : bool) (self : dst) (u : R -> vcm) (x dx : R -> dst) (T : R) : Prop :=
  (forall t, 0 <= t < T -> vehicle_dyn_dynamics g p pf pr collided self (x t) (u t) = Some (dx t)) /\
  evolves (fun t => d_x (x t)) (fun t => d_x (dx t)) T /\ evolves (fun t => d_y (x t)) (fun t => d_y (dx t)) T /\ evolves (fun t => d_psi (x t)) (fun t => d_psi (dx t)) T /\
  evolves (fun t => d_vx (x t)) (fun t => d_vx (dx t)) T /\ evolves (fun t => d_vy (x t)) (fun t => d_vy (dx t)) T /\ evolves (fun t => d_dpsi (x t)) (fun t => d_dpsi (dx t)) T /\
  evolves (fun t => d_delta (x t)) (fun t => d_delta (dx t)) T.
(** The thrust of an engine that is asked for [F]: none when the tank is empty. *)
Definition thrust_of (p : rpar) (m F : R) : R := if Rle_dec m (rp_mv p) then 0 else clip (rp_Flo p) (rp_Fhi p) F.
(** The drag of the air: the change of the longitudinal acceleration when the frontal
    area is set to zero. *)
Definition no_area (g : vgeo) : vgeo := mkVG (vg_type g) (vg_m g) (vg_Iz g) (vg_w_half g) (vg_lf g) (vg_lr g) (vg_c_drag g) 0 (vg_c_rr_f g) (vg_c_rr_r g) (vg_h g).
Definition drag_is (g : vgeo) (p : vpar) (pf pr : pacejka) (x : dst) (u : vcm) (F : R) : Prop :=
  exists a b, vehicle_dyn_dynamics g p pf pr false x x u = Some a /\ vehicle_dyn_dynamics (no_area g) p pf pr false x x u = Some b /\ vg_m g * (d_vx a - d_vx b) = F.
