(** Vocabulary of the statements on motion in different places. *)
From Coq Require Import Reals QArith Qcanon List.
From Verif Require Import Base Num R2 SeqModel GeoModel DataModel DynModel DynSpec.
Import ListNotations.
Open Scope R_scope.

(** The plane turned by [a] and then moved by [p]. *)
Definition placed (p : vec) (a : R) (q : vec) : vec :=
  (fst p + (cos a * fst q - sin a * snd q), snd p + (sin a * fst q + cos a * snd q)).
Definition turned (a : R) (q : vec) : vec := (cos a * fst q - sin a * snd q, sin a * fst q + cos a * snd q).

(** The same state in another place; headings are turned, velocities in the
    frame of the body stay. *)
Definition vst_at (p : vec) (a : R) (x : vst) : vst :=
  let q := placed p a (v_x x, v_y x) in mkV (fst q) (snd q) (v_psi x + a) (v_vx x) (v_delta x).
Definition dst_at (p : vec) (a : R) (x : dst) : dst :=
  let q := placed p a (d_x x, d_y x) in mkD (fst q) (snd q) (d_psi x + a) (d_vx x) (d_vy x) (d_dpsi x) (d_delta x).
Definition st6_at (p : vec) (a : R) (x : st6) : st6 :=
  let q := placed p a (s_x x, s_y x) in mk6 (fst q) (snd q) (s_psi x + a) (s_vx x) (s_vy x) (s_dpsi x).
Definition st3_at (p : vec) (a : R) (x : st3) : st3 :=
  let q := placed p a (w_x x, w_y x) in mk3 (fst q) (snd q) (w_psi x + a).
Definition st8_at (p : vec) (a : R) (x : st8) : st8 :=
  let q := placed p a (r_x x, r_y x) in mk8 (fst q) (snd q) (r_psi x + a) (r_vx x) (r_vy x) (r_dpsi x) (r_ang x) (r_m x).
(** The velocities of rockets are those in the fixed frame. *)
Definition rocket_at (p : vec) (a : R) (x : st8) : st8 :=
  let q := placed p a (r_x x, r_y x) in let v := turned a (r_vx x, r_vy x) in
  mk8 (fst q) (snd q) (r_psi x + a) (fst v) (snd v) (r_dpsi x) (r_ang x) (r_m x).

(** Seen in a mirror along the first axis. *)
Definition vst_mirror (x : vst) : vst := mkV (v_x x) (- v_y x) (- v_psi x) (v_vx x) (- v_delta x).
Definition dst_mirror (x : dst) : dst := mkD (d_x x) (- d_y x) (- d_psi x) (d_vx x) (- d_vy x) (- d_dpsi x) (- d_delta x).
Definition st6_mirror (x : st6) : st6 := mk6 (s_x x) (- s_y x) (- s_psi x) (s_vx x) (- s_vy x) (- s_dpsi x).
Definition st3_mirror (x : st3) : st3 := mk3 (w_x x) (- w_y x) (- w_psi x).
(** The two nozzles of a rocket turn symmetrically by the same angle. *)
Definition rocket_mirror (x : st8) : st8 := mk8 (r_x x) (- r_y x) (- r_psi x) (r_vx x) (- r_vy x) (- r_dpsi x) (r_ang x) (r_m x).
Definition spaceship_mirror (x : st8) : st8 := mk8 (r_x x) (- r_y x) (- r_psi x) (r_vx x) (- r_vy x) (- r_dpsi x) (- r_ang x) (r_m x).
Definition vcm_mirror (u : vcm) : vcm := mkVCm (c_acc u) (- c_ddelta u).
Definition pcm_mirror (u : pcm) : pcm := mkPC (pc_acc u) (- pc_dpsi u).
Definition wcm_mirror (u : wcm) : wcm := mkWC (wc_r u) (wc_l u).
Definition scm_mirror (u : scm) : scm := mkSC (sc_r u) (sc_l u).
Definition ocm_mirror (u : ocm) : ocm := mkOC (oc_x u) (- oc_y u) (- oc_psi u).
Definition rcm_mirror (u : rcm) : rcm := mkRC (rc_r u) (rc_l u) (rc_dphi u).
Definition ssc_mirror (u : ssc) : ssc := mkSSC (ss_thrust u) (- ss_ddelta u).
(** A history of commands, each with its integration steps. *)
Definition mirrored {U} (m : U -> U) (l : list (U * list R)) : list (U * list R) := map (fun uh => (m (fst uh), snd uh)) l.

(** [x'] is the sample [x] after moving the plane by [t]: position and heading are
    moved with it, the heading is the one between -PI and PI, nothing else changes. *)
Definition sample_moved (t : SE2Transform) (x x' : vst) : Prop :=
  (v_x x', v_y x') = placed (t_p t) (t_theta t) (v_x x, v_y x) /\ same_angle (v_psi x') (v_psi x + t_theta t) /\ - PI < v_psi x' <= PI /\
  v_vx x' = v_vx x /\ v_delta x' = v_delta x.

(** Runge-Kutta methods whose stages lie within the step and that integrate constants
    exactly. *)
Definition sum (l : list R) : R := fold_right Rplus 0 l.
Definition consistent (tab : list (list R) * list R) : Prop :=
  (forall k r, nth_error (fst tab) k = Some r -> (length r <= k)%nat /\ 0 <= sum r <= 1) /\ (length (snd tab) <= length (fst tab))%nat /\ sum (snd tab) = 1.
(** Dormand and Prince's method of order 5, used by solve_ivp (RK45). *)
Definition rk45 : list (list R) * list R :=
  ([[]; [1 / 5]; [3 / 40; 9 / 40]; [44 / 45; - (56 / 15); 32 / 9]; [19372 / 6561; - (25360 / 2187); 64448 / 6561; - (212 / 729)];
    [9017 / 3168; - (355 / 33); 46732 / 5247; 49 / 176; - (5103 / 18656)]],
   [35 / 384; 0; 500 / 1113; 125 / 192; - (2187 / 6784); 11 / 84]).

(** Strictly between. *)
Definition inside (x lo hi : R) : Prop := lo < x < hi.
(** Commands and states that no limit touches, from [x] on for the time [T]. *)
Definition unlimited (p : vpar) (x : vst) (u : vcm) (T : R) : Prop :=
  within (c_acc u) (mp_alo (vp_m p)) (mp_ahi (vp_m p)) /\ within (c_ddelta u) (- vp_ddmax p) (vp_ddmax p) /\
  inside (v_vx x) (mp_vlo (vp_m p)) (mp_vhi (vp_m p)) /\ inside (v_vx x + c_acc u * T) (mp_vlo (vp_m p)) (mp_vhi (vp_m p)) /\
  inside (v_delta x) (- vp_dmax p) (vp_dmax p) /\ inside (v_delta x + c_ddelta u * T) (- vp_dmax p) (vp_dmax p).
(** An exact motion at the rates [dx]. *)
Definition motion5 (dx : R -> vst) (x : R -> vst) (T : R) : Prop :=
  evolves (fun t => v_x (x t)) (fun t => v_x (dx t)) T /\ evolves (fun t => v_y (x t)) (fun t => v_y (dx t)) T /\ evolves (fun t => v_psi (x t)) (fun t => v_psi (dx t)) T /\
  evolves (fun t => v_vx (x t)) (fun t => v_vx (dx t)) T /\ evolves (fun t => v_delta (x t)) (fun t => v_delta (dx t)) T.
