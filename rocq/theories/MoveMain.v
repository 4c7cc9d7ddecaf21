(* Generated from tools/Move.src by tools/gen_props.py. *)
(** Properties of moved trajectories and of motion in different places. *)
From Coq Require Import Reals Lra Psatz QArith Qreals Qcanon List Bool Arith Lia.
From Verif Require Import Base Num R2 SeqModel SeqSpec SeqProps GeoModel GeoSpec GeoProofs DataModel DynModel DynSpec DynProofs MoveModel MoveSpec MoveProofs.
Import ListNotations.
Open Scope R_scope.

Lemma moved_eq t x : apply_SE2_state t x = let q := placed (t_p t) (t_theta t) (v_x x, v_y x) in mkV (fst q) (snd q) (angle_from_SE2 (SE2_from_translation_angle q (t_theta t + v_psi x))) (v_vx x) (v_delta x).
Proof.
  unfold apply_SE2_state, as_SE2, pose_of_vst. rewrite se2_mul. unfold translation_angle_from_SE2, translation_from_SE2, placed, SE2_apply_T2. cbn [SE2_from_translation_angle m02 m12 fst snd m00 m01 m10 m11].
  f_equal; ring.
Qed.

Lemma moved_spec t x : sample_moved t x (apply_SE2_state t x).
Proof.
  rewrite moved_eq. cbv zeta. unfold sample_moved. cbn [v_x v_y v_psi v_vx v_delta]. split; [destruct (placed _ _ _); reflexivity|]. split; [|split; [apply angle_range|split; reflexivity]].
  unfold same_angle. rewrite (Rplus_comm (v_psi x)). apply angle_cs.
Qed.

Lemma angle_eq a b : - PI < a <= PI -> - PI < b <= PI -> same_angle a b -> a = b.
Proof. intros Ha Hb [H1 H2]. apply angle_unique; assumption. Qed.

Lemma moved_unique t x y z : sample_moved t x y -> sample_moved t x z -> y = z.
Proof.
  intros (P1 & A1 & R1 & V1 & D1) (P2 & A2 & R2 & V2 & D2). rewrite <- P2 in P1. injection P1 as X Y. assert (A : v_psi y = v_psi z).
  { apply angle_eq; try assumption. unfold same_angle in *. destruct A1, A2. split; congruence. }
  destruct y, z. cbn in *. congruence.
Qed.

(** Moving a trajectory keeps its times, moves every sample with the plane, and nothing
    else about the samples changes; the poses along the result are those of the original
    multiplied by the transform, so that the pose of one sample seen from another is the
    same as before. *)
Lemma C103_moved_pf : forall s t, obtainable s ->
  exists s', apply_SE2transform (mkSamples cTrajectory s) t = Ok (mkSamples cSampledSequence s') /\ obtainable s' /\ tss s' = tss s /\ Forall2 (sample_moved t) (vals s) (vals s') /\
    (forall i x y x' y', nth_error (vals s) i = Some x -> nth_error (vals s') i = Some x' -> pose_of_vst x' = mmul (as_SE2 t) (pose_of_vst x) /\
      forall j, nth_error (vals s) j = Some y -> nth_error (vals s') j = Some y' ->
        relative_pose (pose_of_vst x') (pose_of_vst y') = relative_pose (pose_of_vst x) (pose_of_vst y) /\
        vnorm (v_x x' - v_x y', v_y x' - v_y y') = vnorm (v_x x - v_x y, v_y x - v_y y)).
Proof.
  intros s t Ob. destruct (C07_transform_total_function _ _ _ (apply_SE2_state t) (fun x => x) s Ob) as (s1 & _ & _ & E & _ & _ & Ht & Hv & _).
  exists s1. unfold apply_SE2transform, trajectory_method. cbn [sm_cls sm_seq]. rewrite E. split; [reflexivity|]. split; [exact (ob_trans _ _ _ _ _ Ob E)|]. split; [exact Ht|]. rewrite Hv. split.
  { clear. induction (vals s); cbn; constructor; [apply moved_spec|assumption]. }
  assert (PM : forall x, pose_of_vst (apply_SE2_state t x) = mmul (as_SE2 t) (pose_of_vst x)).
  { intro x. unfold apply_SE2_state, translation_angle_from_SE2. unfold pose_of_vst at 1. cbn [v_x v_y v_psi]. rewrite <- surjective_pairing. apply as_from. apply is_se2_mul; apply is_se2_of. }
  intros i x y x' y' Hi Hi'. rewrite nth_error_map, Hi in Hi'. cbn [option_map] in Hi'. injection Hi' as <-. split; [apply PM|]. intros j Hj Hj'. rewrite nth_error_map, Hj in Hj'. cbn [option_map] in Hj'. injection Hj' as <-. split.
  - rewrite !PM. unfold relative_pose. rewrite !minv_se2 by (try apply is_se2_mul; apply is_se2_of). f_equal. rewrite inv_mul by apply is_se2_of. rewrite mmul_assoc. f_equal. rewrite <- mmul_assoc. unfold as_SE2. rewrite se2_inv_l by apply is_se2_of. apply mmul_id_l.
  - rewrite !moved_eq. cbv zeta. cbn [v_x v_y]. unfold placed. cbn [fst snd]. unfold vnorm, vdot. cbn [fst snd]. f_equal. pose proof (cs1 (t_theta t)) as C. set (c := cos (t_theta t)) in *. set (d := sin (t_theta t)) in *. unfold Rsqr.
    set (a := v_x x) in *. set (b := v_y x) in *. set (e := v_x y) in *. set (f := v_y y) in *.
    transitivity ((c * c + d * d) * ((a - e) * (a - e) + (b - f) * (b - f))); [ring|]. rewrite C. ring.
Qed.

(** The path of a trajectory lists the poses of its samples. *)
Lemma C103_path_pf : forall s, as_path (mkSamples cTrajectory s) = Ok (map (fun x => mkSE2T (v_x x, v_y x) (v_psi x)) (vals s)).
Proof. reflexivity. Qed.

(** Moving twice is moving once by the product of the transforms, and moving back by the
    inverse gives the same positions, headings (up to whole turns) and other values. *)
Lemma C103_moved_twice_pf : forall s t1 t2 s1 s2, obtainable s ->
  apply_SE2transform (mkSamples cTrajectory s) t1 = Ok (mkSamples cSampledSequence s1) ->
  apply_SE2transform (mkSamples cTrajectory s1) t2 = Ok (mkSamples cSampledSequence s2) ->
  apply_SE2transform (mkSamples cTrajectory s) (from_SE2 (mmul (as_SE2 t2) (as_SE2 t1))) = Ok (mkSamples cSampledSequence s2) /\
  (mmul (as_SE2 t2) (as_SE2 t1) = mid -> tss s2 = tss s /\
     Forall2 (fun x y => v_x y = v_x x /\ v_y y = v_y x /\ same_angle (v_psi y) (v_psi x) /\ v_vx y = v_vx x /\ v_delta y = v_delta x) (vals s) (vals s2)).
Proof.
  intros s t1 t2 s1 s2 Ob E1 E2. unfold apply_SE2transform, trajectory_method in *. cbn [sm_cls sm_seq] in *.
  destruct (C07_transform_total_function _ _ _ (apply_SE2_state t1) (apply_SE2_state t2) s Ob) as (a & b & c & Ea & Eb & Ec & Ta & Va & Ebc). subst c.
  rewrite Ea in E1. injection E1 as <-. rewrite Eb in E2. injection E2 as <-.
  assert (F : forall x, apply_SE2_state (from_SE2 (mmul (as_SE2 t2) (as_SE2 t1))) x = apply_SE2_state t2 (apply_SE2_state t1 x)).
  { intro x. unfold apply_SE2_state at 1 2. set (q := mmul (as_SE2 t2) (as_SE2 t1)). assert (Q : as_SE2 (from_SE2 q) = q). { unfold from_SE2, translation_angle_from_SE2, as_SE2. cbn [t_p t_theta]. apply as_from. apply is_se2_mul; apply is_se2_of. }
    rewrite Q. unfold q. rewrite mmul_assoc. assert (W : pose_of_vst (apply_SE2_state t1 x) = mmul (as_SE2 t1) (pose_of_vst x)).
    { unfold apply_SE2_state, translation_angle_from_SE2. unfold pose_of_vst at 1. cbn [v_x v_y v_psi]. rewrite <- surjective_pairing. apply as_from. apply is_se2_mul; apply is_se2_of. }
    rewrite W. unfold apply_SE2_state, translation_angle_from_SE2. reflexivity. }
  split.
  - assert (G : transform_values (fun x => Some (apply_SE2_state (from_SE2 (mmul (as_SE2 t2) (as_SE2 t1))) x)) s = Ok b).
    { rewrite <- Ec. unfold transform_values. assert (K : flat_map (fun '(t, v) => match Some (apply_SE2_state (from_SE2 (mmul (as_SE2 t2) (as_SE2 t1))) v) with Some y => [(t, y)] | None => [] end) (iter s) = flat_map (fun '(t, v) => match Some (apply_SE2_state t2 (apply_SE2_state t1 v)) with Some y => [(t, y)] | None => [] end) (iter s)).
      { apply flat_map_ext. intros [t v]. rewrite F. reflexivity. } rewrite K. reflexivity. }
    rewrite G. reflexivity.
  - intro I. destruct (C07_transform_total_function _ _ _ (fun x => apply_SE2_state t2 (apply_SE2_state t1 x)) (fun x => x) s Ob) as (b' & _ & _ & Eb' & _ & _ & Tb & Vb & _). rewrite Ec in Eb'. injection Eb' as <-. split; [exact Tb|]. rewrite Vb.
    assert (W : forall x, let y := apply_SE2_state t2 (apply_SE2_state t1 x) in v_x y = v_x x /\ v_y y = v_y x /\ same_angle (v_psi y) (v_psi x) /\ v_vx y = v_vx x /\ v_delta y = v_delta x).
    { intro x. cbv zeta. rewrite <- F. rewrite I. unfold apply_SE2_state. assert (Q : as_SE2 (from_SE2 mid) = mid). { unfold from_SE2, translation_angle_from_SE2, as_SE2. cbn [t_p t_theta]. apply as_from. rewrite <- I. apply is_se2_mul; apply is_se2_of. }
      rewrite Q, mmul_id_l. unfold translation_angle_from_SE2, pose_of_vst. cbn [v_x v_y v_psi v_vx v_delta]. split; [reflexivity|]. split; [reflexivity|]. split; [|split; reflexivity]. apply angle_cs. }
    clear - W. induction (vals s); cbn; constructor; [apply W|assumption].
Qed.

Lemma qc2r_sub a : qc2r (1 - a) = 1 - qc2r a.
Proof. unfold qc2r. transitivity (Q2R (1 - this a)). { apply Qeq_eqR. unfold Qcminus, Qcplus, Qcopp. cbn [this Q2Qc]. rewrite !Qred_correct. reflexivity. } rewrite Q2R_minus. unfold Q2R at 1. cbn. lra. Qed.

Lemma nth_last {A} (l : list A) : last_of l = nth_error l (length l - 1).
Proof. reflexivity. Qed.

(** The state between two samples of the moved trajectory: position, speed and steering
    angle are those of the original between the samples, moved. *)
Lemma C103_between_pf : forall s t s' tt x, obtainable s -> apply_SE2transform (mkSamples cTrajectory s) t = Ok (mkSamples cSampledSequence s') -> state_at s tt = Ok x ->
  exists x', state_at s' tt = Ok x' /\ (v_x x', v_y x') = placed (t_p t) (t_theta t) (v_x x, v_y x) /\ v_vx x' = v_vx x /\ v_delta x' = v_delta x.
Proof.
  intros s t s' tt x Ob E H. unfold apply_SE2transform, trajectory_method in E. cbn [sm_cls sm_seq] in E.
  destruct (C07_transform_total_function _ _ _ (apply_SE2_state t) (fun x => x) s Ob) as (s1 & _ & _ & E1 & _ & _ & Ht & Hv & _). rewrite E1 in E. injection E as <-.
  pose proof (ob_trans _ _ _ _ _ Ob E1) as Ob'. unfold state_at in *. destruct (C04_at_interp_contract _ vst_mul vst_add s tt Ob) as [_ C]. destruct (C04_at_interp_contract _ vst_mul vst_add s1 tt Ob') as [_ C'].
  apply C in H. destruct H as [t0 v H0 Hle Hv0|t0 v H0 Hle Hv0 Hn|i ta tb va vb Ha Hb Hva Hvb L1 L2 L3].
  - exists (apply_SE2_state t v). split; [apply C'; eapply ir_before; [rewrite Ht; exact H0|exact Hle|]; rewrite Hv, nth_error_map, Hv0; reflexivity|].
    destruct (moved_spec t v) as (P & _ & _ & V & D). auto.
  - exists (apply_SE2_state t v). split.
    + apply C'. eapply ir_after; [rewrite Ht; exact H0|exact Hle| |rewrite Ht; exact Hn]. rewrite Hv, nth_last, map_length, nth_error_map, <- nth_last, Hv0. reflexivity.
    + destruct (moved_spec t v) as (P & _ & _ & V & D). auto.
  - eexists. split; [apply C'; eapply (ir_inside _ _ _ _ i ta tb); try (rewrite Ht; eassumption); try (rewrite Hv, nth_error_map, ?Hva, ?Hvb; reflexivity); assumption|].
    set (al := ((tt - ta) / (tb - ta))%Qc). unfold vst_mul. rewrite qc2r_sub. set (k := qc2r al).
    destruct (moved_spec t va) as (P & _ & _ & V & D). destruct (moved_spec t vb) as (P' & _ & _ & V' & D'). set (a := apply_SE2_state t va) in *. set (b := apply_SE2_state t vb) in *. clearbody a b.
    unfold placed in *. cbn [fst snd] in *. injection P as PX PY. injection P' as PX' PY'. cbn [vst_add vst_scale v_x v_y v_vx v_delta]. rewrite PX, PY, PX', PY', V, V', D, D'. split; [f_equal; ring|split; reflexivity].
Qed.

Definition turn_seq : seq vst := mkSeq [qz 0; qz 1] [mkV 0 0 (3 * PI / 4) 1 0; mkV 1 0 (3 * PI / 4) 1 0] true.
Definition wrap_seq : seq vst := mkSeq [qz 0; qz 2] [mkV 0 0 (-(PI / 4)) 1 0; mkV 1 0 (PI / 4) 1 0] true.

Lemma ob_wrap : obtainable wrap_seq.
Proof. apply (ob_new _ true [qz 0; qz 2] [mkV 0 0 (-(PI / 4)) 1 0; mkV 1 0 (PI / 4) 1 0]). reflexivity. Qed.

Lemma moved_psi_wrap a : - PI < a <= PI -> forall t x, same_angle a (v_psi x + t_theta t) -> v_psi (apply_SE2_state t x) = a.
Proof. intros Ha t x S. destruct (moved_spec t x) as (_ & A & Rg & _). apply angle_eq; [exact Rg|exact Ha|]. unfold same_angle in *. destruct A, S. split; congruence. Qed.

(** Refuted: headings between two samples do not move with the trajectory, because the
    moved headings are wrapped before they are averaged.  A trajectory that turns from
    -45 to 45 degrees and passes 0 halfway faces the opposite direction halfway once it
    is turned by half a turn: its heading should be 180 degrees and is 0. *)
Lemma C103_heading_between_refuted_pf : exists s t s' tt x x', obtainable s /\
  apply_SE2transform (mkSamples cTrajectory s) t = Ok (mkSamples cSampledSequence s') /\ state_at s tt = Ok x /\ state_at s' tt = Ok x' /\
  v_psi x = 0 /\ t_theta t = PI /\ v_psi x' = 0 /\ ~ same_angle (v_psi x') (v_psi x + t_theta t).
Proof.
  pose proof PI_RGT_0 as HP. pose (t := mkSE2T (0, 0) PI).
  assert (A1 : v_psi (apply_SE2_state t (mkV 0 0 (-(PI / 4)) 1 0)) = 3 * PI / 4).
  { apply moved_psi_wrap; [lra|]. cbn [v_psi t_theta t]. replace (-(PI / 4) + PI) with (3 * PI / 4) by field. split; reflexivity. }
  assert (A2 : v_psi (apply_SE2_state t (mkV 1 0 (PI / 4) 1 0)) = - (3 * PI / 4)).
  { apply moved_psi_wrap; [lra|]. cbn [v_psi t_theta t]. replace (PI / 4 + PI) with (- (3 * PI / 4) + 2 * PI) by field. split; [rewrite cos_plus, cos_2PI, sin_2PI|rewrite sin_plus, cos_2PI, sin_2PI]; ring. }
  pose (s' := mkSeq [qz 0; qz 2] [apply_SE2_state t (mkV 0 0 (-(PI / 4)) 1 0); apply_SE2_state t (mkV 1 0 (PI / 4) 1 0)] true).
  assert (E : apply_SE2transform (mkSamples cTrajectory wrap_seq) t = Ok (mkSamples cSampledSequence s')) by reflexivity.
  assert (Ob' : obtainable s'). { apply (ob_new _ true [qz 0; qz 2] (vals s')). reflexivity. }
  assert (Half : (((qz 1 - qz 0) / (qz 2 - qz 0))%Qc) = Q2Qc (1 # 2)) by (apply Qc_is_canon; vm_compute; reflexivity).
  assert (K : forall va vb (s : seq vst), obtainable s -> tss s = [qz 0; qz 2] -> vals s = [va; vb] -> exists x, state_at s (qz 1) = Ok x /\ v_psi x = (v_psi va + v_psi vb) / 2).
  { intros va vb s Ob T V. destruct (C04_at_interp_contract _ vst_mul vst_add s (qz 1) Ob) as [_ C]. eexists. split.
    - apply C. eapply (ir_inside _ _ _ _ 0 (qz 0) (qz 2) va vb); rewrite ?T, ?V; try reflexivity. + discriminate. + right. reflexivity.
    - rewrite Half. unfold vst_mul. rewrite qc2r_sub. assert (Q : qc2r (Q2Qc (1 # 2)) = 1 / 2). { unfold qc2r, Q2R. cbn. lra. } rewrite Q. cbn [vst_add vst_scale v_psi]. lra. }
  destruct (K _ _ wrap_seq ob_wrap eq_refl eq_refl) as (x & Hx & Px). destruct (K _ _ s' Ob' eq_refl eq_refl) as (x' & Hx' & Px'). cbn [v_psi] in Px. rewrite A1, A2 in Px'.
  assert (X0 : v_psi x = 0) by lra. assert (X0' : v_psi x' = 0) by lra.
  exists wrap_seq, t, s', (qz 1), x, x'. split; [exact ob_wrap|]. split; [exact E|]. split; [exact Hx|]. split; [exact Hx'|]. split; [exact X0|]. split; [reflexivity|]. split; [exact X0'|]. rewrite X0, X0'. cbn [t_theta t]. intros [Cc _]. rewrite Rplus_0_l, cos_0, cos_PI in Cc. lra.
Qed.

(** Refuted: the result of moving a trajectory is not a trajectory, its path cannot be
    taken and it cannot be moved again. *)
Lemma C103_result_class_refuted_pf : forall s t o, apply_SE2transform (mkSamples cTrajectory s) t = Ok o ->
  as_path o = Err PyAttributeError /\ forall t', apply_SE2transform o t' = Err PyAttributeError.
Proof.
  intros s t o H. unfold apply_SE2transform, trajectory_method in H. cbn [sm_cls sm_seq] in H. destruct (transform_values _ s); [|discriminate]. injection H as <-. split; reflexivity.
Qed.

Ltac turn_trig := rewrite ?cos_plus, ?sin_plus, ?cos_minus, ?sin_minus.

(** The whole history of updates commutes with moving the plane: for every integration
    method and every sequence of commands and steps, before and after collisions,
    starting in the moved state ends in the moved end state; nothing fails in one
    place and works in another. *)
Lemma C104_vehicle_pf : forall g p tab c st l q a, updates (vehicle_plant g p) tab c (vst_at q a st) l = option_map (vst_at q a) (updates (vehicle_plant g p) tab c st l).
Proof.
  intros. apply updates_eqv_id with (A := vst_at q a) (L := vst_lin a); [affine|]. intros self x u. cbn [p_dynamics vehicle_plant option_map]. unfold vehicle_dynamics, vst_at, vst_lin, turned. cbn [v_x v_y v_psi v_vx v_delta fst snd]. turn_trig. f_equal. f_equal; ring.
Qed.

Lemma C104_vehicle_dyn_pf : forall g p pf pr tab c st l q a, updates (vehicle_dyn_plant g p pf pr) tab c (dst_at q a st) l = option_map (dst_at q a) (updates (vehicle_dyn_plant g p pf pr) tab c st l).
Proof.
  intros. apply updates_eqv_id with (A := dst_at q a) (L := dst_lin a); [affine|]. intros self x u. cbn [p_dynamics vehicle_dyn_plant]. unfold vehicle_dyn_dynamics, wheel_forces, vehicle_friction, vehicle_dynamics, dst_at, dst_lin, turned. cbn [d_x d_y d_psi d_vx d_vy d_dpsi d_delta v_x v_y v_psi v_vx v_delta fst snd].
  destruct c; (destruct (ltb _ (1 / 10)); [cbn [option_map v_x v_y v_psi v_vx v_delta d_x d_y d_psi d_vx d_vy d_dpsi d_delta fst snd]; turn_trig; f_equal; f_equal; ring|]).
  all: destruct (normal_forces g _) as [F1 F2]; destruct (acceleration_split _ _) as [Fa Fb]; destruct (np_atan_div _ _); [|reflexivity]; destruct (saturation _ _ _); [|reflexivity]; destruct (np_atan_div _ _); [|reflexivity]; destruct (saturation _ _ _); [|reflexivity].
  all: cbn [option_map fst snd d_x d_y d_psi d_vx d_vy d_dpsi d_delta]; turn_trig; f_equal; f_equal; ring.
Qed.

Lemma C104_pedestrian_pf : forall p tab c st l q a, updates (pedestrian_plant p) tab c (st6_at q a st) l = option_map (st6_at q a) (updates (pedestrian_plant p) tab c st l).
Proof.
  intros. apply updates_eqv_id with (A := st6_at q a) (L := st6_lin a); [affine|]. intros self x u. cbn [p_dynamics pedestrian_plant option_map]. unfold pedestrian_dynamics, st6_at, st6_lin, turned. cbn [s_x s_y s_psi s_vx s_vy s_dpsi fst snd]. destruct c; cbn [s_x s_y s_psi s_vx s_vy s_dpsi fst snd]; turn_trig; f_equal; f_equal; ring.
Qed.

Lemma C104_diff_drive_pf : forall wb wr lo hi tab c st l q a, updates (diff_drive_plant wb wr lo hi) tab c (st3_at q a st) l = option_map (st3_at q a) (updates (diff_drive_plant wb wr lo hi) tab c st l).
Proof.
  intros. apply updates_eqv_id with (A := st3_at q a) (L := st3_lin a); [affine|]. intros self x u. cbn [p_dynamics diff_drive_plant option_map]. unfold diff_drive_dynamics, st3_at, st3_lin, turned. cbn [w_x w_y w_psi fst snd]. turn_trig; f_equal; f_equal; unfold Rdiv; ring.
Qed.

Lemma C104_spacecraft_pf : forall p lo hi w m Iz tab c st l q a, updates (spacecraft_plant p lo hi w m Iz) tab c (st6_at q a st) l = option_map (st6_at q a) (updates (spacecraft_plant p lo hi w m Iz) tab c st l).
Proof.
  intros. apply updates_eqv_id with (A := st6_at q a) (L := st6_lin a); [affine|]. intros self x u. cbn [p_dynamics spacecraft_plant option_map]. unfold spacecraft_dynamics, st6_at, st6_lin, turned. cbn [s_x s_y s_psi s_vx s_vy s_dpsi fst snd]. turn_trig; f_equal; f_equal; ring.
Qed.

Lemma C104_obstacle_pf : forall p lo hi tab c st l q a, updates (obstacle_plant p lo hi) tab c (st6_at q a st) l = option_map (st6_at q a) (updates (obstacle_plant p lo hi) tab c st l).
Proof.
  intros. apply updates_eqv_id with (A := st6_at q a) (L := st6_lin a); [affine|]. intros self x u. cbn [p_dynamics obstacle_plant option_map]. unfold obstacle_dynamics, st6_at, st6_lin, turned. cbn [s_x s_y s_psi s_vx s_vy s_dpsi fst snd]. turn_trig; f_equal; f_equal; ring.
Qed.

(** The velocity of rockets is that in the fixed frame and turns with the plane. *)
Lemma C104_rocket_pf : forall p Iz l_m tab c st l q a, updates (rocket_plant p Iz l_m) tab c (rocket_at q a st) l = option_map (rocket_at q a) (updates (rocket_plant p Iz l_m) tab c st l).
Proof.
  intros. apply updates_eqv_id with (A := rocket_at q a) (L := rocket_lin a); [affine|]. intros self x u. cbn [p_dynamics rocket_plant option_map]. unfold rocket_dynamics, rocket_thrust, rocket_at, rocket_lin, turned. cbn [r_x r_y r_psi r_vx r_vy r_dpsi r_ang r_m fst snd].
  destruct (if leb _ _ then _ else _) as [Fl Fr]. cbn [r_x r_y r_psi r_vx r_vy r_dpsi r_ang r_m fst snd]. rewrite ?sin_minus, ?cos_minus, ?sin_plus, ?cos_plus, ?sin_plus, ?cos_plus. f_equal; f_equal; ring.
Qed.

Lemma C104_spaceship_pf : forall p Iz l_r tab c st l q a, updates (spaceship_plant p Iz l_r) tab c (st8_at q a st) l = option_map (st8_at q a) (updates (spaceship_plant p Iz l_r) tab c st l).
Proof.
  intros. apply updates_eqv_id with (A := st8_at q a) (L := st8_lin a); [affine|]. intros self x u. cbn [p_dynamics spaceship_plant option_map]. unfold spaceship_dynamics, spaceship_thrust, st8_at, st8_lin, turned. cbn [r_x r_y r_psi r_vx r_vy r_dpsi r_ang r_m fst snd]. turn_trig. f_equal; f_equal; ring.
Qed.

Lemma turns a b : same_angle a b -> exists k, a = b + k /\ cos k = 1 /\ sin k = 0.
Proof.
  intros [C S]. exists (a - b). split; [ring|]. rewrite cos_minus, sin_minus, C, S. pose proof (cs1 b). split; [lra|ring].
Qed.

(** The predictions of the planner commute with moving the plane too. *)
Lemma C104_planner_pf : forall g p tab x u hs dt q a,
  successor g p (vst_at q a x) u dt = vst_at q a (successor g p x u dt) /\
  forall y, successor_ivp g tab (vst_at q a x) u hs = Ok (vst_at q a y) <-> successor_ivp g tab x u hs = Ok y.
Proof.
  intros. assert (D : forall x u, bicycle_dynamics g (vst_at q a x) u = vst_lin a (bicycle_dynamics g x u)).
  { clear. intros x u. unfold bicycle_dynamics, vst_at, vst_lin, turned. cbn [v_x v_y v_psi v_vx v_delta fst snd]. turn_trig. f_equal; ring. }
  split.
  - unfold successor. rewrite D. unfold vst_at, vst_lin, vst_add, vst_scale, placed, turned. cbn [v_x v_y v_psi v_vx v_delta fst snd]. f_equal; ring.
  - pose proof (updates_eqv_id (bicycle_plant g) (vst_at q a) (vst_lin a) false) as E.
    assert (S : update (bicycle_plant g) tab false (vst_at q a x) u hs = option_map (vst_at q a) (update (bicycle_plant g) tab false x u hs)).
    { assert (T : updates (bicycle_plant g) tab false (vst_at q a x) [(u, hs)] = option_map (vst_at q a) (updates (bicycle_plant g) tab false x [(u, hs)])).
      { apply updates_eqv_id with (A := vst_at q a) (L := vst_lin a); [affine|]. intros self x' u'. cbn [p_dynamics bicycle_plant option_map]. rewrite D. reflexivity. }
      cbn [updates] in T. destruct (update (bicycle_plant g) tab false (vst_at q a x) u hs), (update (bicycle_plant g) tab false x u hs); exact T. }
    assert (I : forall y y', vst_at q a y = vst_at q a y' -> y = y').
    { clear. intros [x1 y1 p1 v1 d1] [x2 y2 p2 v2 d2] H. unfold vst_at, placed in H. cbn [v_x v_y v_psi v_vx v_delta fst snd] in H. injection H as H1 H2 H3 -> ->.
      pose proof (sin2_cos2 a) as SC. unfold Rsqr in SC. set (c := cos a) in *. set (w := sin a) in *.
      assert (E1 : c * (x1 - x2) - w * (y1 - y2) = 0) by lra. assert (E2 : w * (x1 - x2) + c * (y1 - y2) = 0) by lra.
      assert (x1 - x2 = 0) by (replace (x1 - x2) with ((w * w + c * c) * (x1 - x2)) by (rewrite SC; ring); replace ((w * w + c * c) * (x1 - x2)) with (c * (c * (x1 - x2) - w * (y1 - y2)) + w * (w * (x1 - x2) + c * (y1 - y2))) by ring; rewrite E1, E2; ring).
      assert (y1 - y2 = 0) by (replace (y1 - y2) with ((w * w + c * c) * (y1 - y2)) by (rewrite SC; ring); replace ((w * w + c * c) * (y1 - y2)) with (c * (w * (x1 - x2) + c * (y1 - y2)) - w * (c * (x1 - x2) - w * (y1 - y2))) by ring; rewrite E1, E2; ring).
      replace x1 with x2 by lra. replace y1 with y2 by lra. replace p1 with p2 by lra. reflexivity. }
    assert (OI : forall b c : vst, Ok b = Ok c -> b = c) by (intros b c H; congruence). intro y. unfold successor_ivp. rewrite S. destruct (update (bicycle_plant g) tab false x u hs) as [z|]; cbn [option_map]; [|split; discriminate]. split; [intro H; f_equal; apply I, OI, H|intro H; apply OI in H as ->; reflexivity].
Qed.

(** Moved starting states: whole turns of the heading do not matter. *)
Lemma C104_moved_start_pf : forall g p tab c t x x' l y, sample_moved t x x' -> updates (vehicle_plant g p) tab c x l = Some y ->
  exists y', updates (vehicle_plant g p) tab c x' l = Some y' /\ (v_x y', v_y y') = placed (t_p t) (t_theta t) (v_x y, v_y y) /\ same_angle (v_psi y') (v_psi y + t_theta t) /\ v_vx y' = v_vx y /\ v_delta y' = v_delta y.
Proof.
  intros g p tab c t x x' l y (P & A & _ & V & D) H. destruct (turns _ _ A) as (k & K & C & S).
  assert (T : forall q, placed (t_p t) (t_theta t + k) q = placed (t_p t) (t_theta t) q). { intro q. unfold placed. rewrite cos_plus, sin_plus, C, S. f_equal; ring. }
  assert (X : x' = vst_at (t_p t) (t_theta t + k) x). { unfold vst_at. rewrite T, <- P. cbn [fst snd]. destruct x'. cbn in *. subst. f_equal. ring. }
  rewrite X, C104_vehicle_pf, H. cbn [option_map]. eexists. split; [reflexivity|]. unfold vst_at. cbn [v_x v_y v_psi v_vx v_delta]. rewrite T, <- surjective_pairing. repeat split; auto.
  - rewrite <- Rplus_assoc, cos_plus, C, S. ring. - rewrite <- Rplus_assoc, sin_plus, C, S. ring.
Qed.

Lemma steer_mirror d w dm ddm : 0 <= ddm -> steering_constraint (- d) (- w) dm ddm = - steering_constraint d w dm ddm.
Proof. unfold steering_constraint. intro. cmp. Qed.

Lemma tan_mirror x : tan (- x) = - tan x.
Proof. apply tan_neg. Qed.

Lemma rotation_mirror w m : 0 < m -> rotation_constraint (- w) m = - rotation_constraint w m.
Proof. unfold rotation_constraint. intro. cmp. Qed.

Lemma rot_speed_mirror w d hi : apply_rot_speed_constraint (- w) (- d) (- hi) hi = - apply_rot_speed_constraint w d (- hi) hi.
Proof. unfold apply_rot_speed_constraint. cmp. Qed.

Lemma np_atan_mirror y x : np_atan_div (- y) x = option_map Ropp (np_atan_div y x).
Proof.
  unfold np_atan_div. destruct (Req_EM_T x 0).
  - unfold ltb. repeat match goal with |- context [Rlt_dec ?a ?b] => destruct (Rlt_dec a b) end; cbn [option_map]; try lra; try reflexivity. f_equal. ring.
  - cbn [option_map]. f_equal. replace (- y / x) with (- (y / x)) by (field; assumption). apply atan_opp.
Qed.

Lemma saturation_mirror F n D : saturation (- F) n D = saturation F n D.
Proof. unfold saturation. destruct (Req_EM_T (n * D) 0); [reflexivity|]. replace (1 - (- F / (n * D)) ^ 2) with (1 - (F / (n * D)) ^ 2) by (unfold Rdiv; ring). reflexivity. Qed.

Lemma pac_mirror t s : pac_evaluate t (- s) = - pac_evaluate t s.
Proof.
  destruct t as [B C D|B C D E]; cbn [pac_evaluate].
  - replace (B * - s) with (- (B * s)) by ring. rewrite atan_opp. replace (C * - atan (B * s)) with (- (C * atan (B * s))) by ring. rewrite sin_neg. ring.
  - replace (B * - s) with (- (B * s)) by ring. rewrite atan_opp. set (z := B * s - E * (B * s - E * atan (B * s))). replace (- (B * s) - E * (- (B * s) - E * - atan (B * s))) with (- z) by (unfold z; ring).
    rewrite atan_opp. replace (C * - atan z) with (- (C * atan z)) by ring. rewrite sin_neg. ring.
Qed.

(** Seen in a mirror, every model moves as it would with the commands of the mirror:
    left and right are treated alike, for every history of commands. *)
Lemma C105_vehicle_pf : forall g p tab c st l, vpar_ok p ->
  updates (vehicle_plant g p) tab c (vst_mirror st) (mirrored vcm_mirror l) = option_map vst_mirror (updates (vehicle_plant g p) tab c st l).
Proof.
  intros g p tab c st l (_ & _ & Hd). unfold mirrored. apply (updates_eqv (vehicle_plant g p) vst_mirror vst_mirror vcm_mirror c); [affine|affine|affine|affine|].
  intros self x u. cbn [p_dynamics vehicle_plant option_map]. unfold vehicle_dynamics, vst_mirror, vcm_mirror. cbn [v_x v_y v_psi v_vx v_delta c_acc c_ddelta]. rewrite cos_neg, sin_neg, tan_mirror, steer_mirror by lra. f_equal. f_equal; unfold Rdiv; ring.
Qed.

Lemma C105_planner_pf : forall g p tab x u hs dt, vpar_ok p ->
  successor g p (vst_mirror x) (vcm_mirror u) dt = vst_mirror (successor g p x u dt) /\
  forall y, successor_ivp g tab (vst_mirror x) (vcm_mirror u) hs = Ok (vst_mirror y) <-> successor_ivp g tab x u hs = Ok y.
Proof.
  intros g p tab x u hs dt (_ & Hd & Hdd). assert (D : forall x u, bicycle_dynamics g (vst_mirror x) (vcm_mirror u) = vst_mirror (bicycle_dynamics g x u)).
  { clear. intros x u. unfold bicycle_dynamics, vst_mirror, vcm_mirror. cbn [v_x v_y v_psi v_vx v_delta c_acc c_ddelta]. rewrite cos_neg, sin_neg, tan_mirror. f_equal; unfold Rdiv; ring. }
  assert (I : forall y, vst_mirror (vst_mirror y) = y) by (intros []; unfold vst_mirror; cbn; f_equal; ring).
  split.
  - unfold successor.
    assert (RC : forall z m, 0 < m -> rclip (- z) (- m) m = - rclip z (- m) m) by (intros z m P; unfold rclip, Rmin, Rmax; repeat destruct (Rle_dec _ _); lra).
    change (c_acc (vcm_mirror u)) with (c_acc u). change (c_ddelta (vcm_mirror u)) with (- c_ddelta u). rewrite RC by assumption.
    set (dd := rclip (c_ddelta u) _ _). set (ac := rclip (c_acc u) _ _). change (mkVCm ac (- dd)) with (vcm_mirror (mkVCm ac dd)). rewrite D.
    set (z := bicycle_dynamics g x (mkVCm ac dd)). unfold vst_mirror, vst_add, vst_scale. cbn [v_x v_y v_psi v_vx v_delta]. replace (- v_delta x + dt * - v_delta z) with (- (v_delta x + dt * v_delta z)) by ring. rewrite RC by assumption. f_equal; ring.
  - assert (S : update (bicycle_plant g) tab false (vst_mirror x) (vcm_mirror u) hs = option_map vst_mirror (update (bicycle_plant g) tab false x u hs)).
    { pose proof (updates_eqv (bicycle_plant g) vst_mirror vst_mirror vcm_mirror false ltac:(affine) ltac:(affine) ltac:(affine) ltac:(affine)) as T.
      specialize (T ltac:(intros self x' u'; cbn [p_dynamics bicycle_plant option_map]; rewrite D; reflexivity) tab [(u, hs)] x). cbn [updates map fst snd] in T.
      destruct (update (bicycle_plant g) tab false (vst_mirror x) (vcm_mirror u) hs), (update (bicycle_plant g) tab false x u hs); exact T. }
    assert (OI : forall b c : vst, Ok b = Ok c -> b = c) by (intros b c H; congruence). intro y. unfold successor_ivp. rewrite S. destruct (update (bicycle_plant g) tab false x u hs) as [z|]; cbn [option_map]; [|split; discriminate]. split; [intro H; apply OI in H; f_equal; rewrite <- (I y), <- (I z), H; reflexivity|intro H; apply OI in H as ->; reflexivity].
Qed.

Lemma wheel_mirror g p pf pr x u : wheel_forces g p pf pr (dst_mirror x) (vcm_mirror u) = option_map (fun F => ((fst (fst F), - snd (fst F)), (fst (snd F), - snd (snd F)))) (wheel_forces g p pf pr x u).
Proof.
  unfold wheel_forces, dst_mirror, vcm_mirror, rot. cbn [d_x d_y d_psi d_vx d_vy d_dpsi d_delta c_acc c_ddelta fst snd]. set (acc := apply_full_acceleration_limits _ _ _). destruct (normal_forces g acc) as [F1 F2]. destruct (acceleration_split _ _) as [Fa Fb].
  rewrite Ropp_involutive. set (dl := d_delta x). set (vy := d_vy x + vg_lf g * d_dpsi x).
  replace (- d_vy x + vg_lf g * - d_dpsi x) with (- vy) by (unfold vy; ring). rewrite cos_neg, sin_neg.
  replace (sin dl * d_vx x + cos dl * - vy) with (- (- sin dl * d_vx x + cos dl * vy)) by ring. replace (cos dl * d_vx x - sin dl * - vy) with (cos dl * d_vx x - - sin dl * vy) by ring.
  rewrite np_atan_mirror. destruct (np_atan_div _ _) as [s1|]; cbn [option_map]; [|reflexivity]. rewrite pac_mirror, Ropp_mult_distr_l_reverse, saturation_mirror. destruct (saturation (pac_evaluate pf s1 * F1) F1 (pac_D pf)) as [k1|]; [|reflexivity].
  replace (- d_vy x - vg_lr g * - d_dpsi x) with (- (d_vy x - vg_lr g * d_dpsi x)) by ring. rewrite np_atan_mirror. destruct (np_atan_div _ _) as [s2|]; cbn [option_map]; [|reflexivity]. rewrite pac_mirror, Ropp_mult_distr_l_reverse, saturation_mirror.
  destruct (saturation (pac_evaluate pr s2 * F2) F2 (pac_D pr)) as [k2|]; [|reflexivity]. reflexivity.
Qed.

Lemma C105_vehicle_dyn_pf : forall g p pf pr tab c st l, vpar_ok p ->
  updates (vehicle_dyn_plant g p pf pr) tab c (dst_mirror st) (mirrored vcm_mirror l) = option_map dst_mirror (updates (vehicle_dyn_plant g p pf pr) tab c st l).
Proof.
  intros g p pf pr tab c st l (_ & _ & Hd). unfold mirrored. apply (updates_eqv (vehicle_dyn_plant g p pf pr) dst_mirror dst_mirror vcm_mirror c); [affine|affine|affine|affine|].
  intros self x u. cbn [p_dynamics vehicle_dyn_plant]. unfold vehicle_dyn_dynamics. rewrite wheel_mirror. destruct (vehicle_friction (vg_type g) c (dst_mirror self)) as [[fx fy] fp] eqn:E1. destruct (vehicle_friction (vg_type g) c self) as [[gx gy] gp] eqn:E2.
  assert (F : fx = gx /\ fy = - gy /\ fp = - gp). { unfold vehicle_friction in E1, E2. destruct c; injection E1 as <- <- <-; injection E2 as <- <- <-; unfold dst_mirror; cbn [d_vx d_vy d_dpsi]; repeat split; ring. }
  destruct F as (-> & -> & ->). cbn [dst_mirror d_vx]. destruct (ltb (d_vx x) (1 / 10)).
  - cbn [option_map]. unfold vehicle_dynamics, dst_mirror, vcm_mirror. cbn [v_x v_y v_psi v_vx v_delta c_acc c_ddelta d_x d_y d_psi d_vx d_vy d_dpsi d_delta]. rewrite cos_neg, sin_neg, tan_mirror, steer_mirror by lra. f_equal. f_equal; unfold Rdiv; ring.
  - destruct (wheel_forces g p pf pr x u) as [[[F1x F1y] [F2x F2y]]|]; cbn [option_map fst snd]; [|reflexivity]. unfold dst_mirror, vcm_mirror, rot. cbn [c_acc c_ddelta d_x d_y d_psi d_vx d_vy d_dpsi d_delta fst snd]. rewrite !cos_neg, !sin_neg, steer_mirror by lra. f_equal. f_equal; unfold Rdiv; ring.
Qed.

Lemma C105_pedestrian_pf : forall p tab c st l, ppar_ok p ->
  updates (pedestrian_plant p) tab c (st6_mirror st) (mirrored pcm_mirror l) = option_map st6_mirror (updates (pedestrian_plant p) tab c st l).
Proof.
  intros p tab c st l (_ & Hd). unfold mirrored. apply (updates_eqv (pedestrian_plant p) st6_mirror st6_mirror pcm_mirror c); [affine|affine|affine|affine|].
  intros self x u. cbn [p_dynamics pedestrian_plant option_map]. unfold pedestrian_dynamics, st6_mirror, pcm_mirror. cbn [s_x s_y s_psi s_vx s_vy s_dpsi pc_acc pc_dpsi]. rewrite cos_neg, sin_neg, rotation_mirror by exact Hd. destruct c; cbn [s_x s_y s_psi s_vx s_vy s_dpsi]; f_equal; f_equal; ring.
Qed.

Lemma C105_diff_drive_pf : forall wb wr lo hi tab c st l,
  updates (diff_drive_plant wb wr lo hi) tab c (st3_mirror st) (mirrored wcm_mirror l) = option_map st3_mirror (updates (diff_drive_plant wb wr lo hi) tab c st l).
Proof.
  intros wb wr lo hi tab c st l. unfold mirrored. apply (updates_eqv (diff_drive_plant wb wr lo hi) st3_mirror st3_mirror wcm_mirror c); [affine|affine|affine|affine|].
  intros self x u. cbn [p_dynamics diff_drive_plant option_map]. unfold diff_drive_dynamics, st3_mirror, wcm_mirror. cbn [w_x w_y w_psi wc_l wc_r]. rewrite cos_neg, sin_neg. f_equal; f_equal; unfold Rdiv; ring.
Qed.

Lemma C105_spacecraft_pf : forall p lo hi w m Iz tab c st l, lo = - hi ->
  updates (spacecraft_plant p lo hi w m Iz) tab c (st6_mirror st) (mirrored scm_mirror l) = option_map st6_mirror (updates (spacecraft_plant p lo hi w m Iz) tab c st l).
Proof.
  intros p lo hi w m Iz tab c st l ->. unfold mirrored. apply (updates_eqv (spacecraft_plant p (- hi) hi w m Iz) st6_mirror st6_mirror scm_mirror c); [affine|affine|affine|affine|].
  intros self x u. cbn [p_dynamics spacecraft_plant option_map]. unfold spacecraft_dynamics, st6_mirror, scm_mirror. cbn [s_x s_y s_psi s_vx s_vy s_dpsi sc_l sc_r]. rewrite cos_neg, sin_neg.
  set (al := apply_acceleration_limits (sc_l u) p). set (ar := apply_acceleration_limits (sc_r u) p). replace (w * m / Iz * (al - ar)) with (- (w * m / Iz * (ar - al))) by ring. rewrite rot_speed_mirror. f_equal; f_equal; ring.
Qed.

Lemma acc_mirror v a p : mp_vlo p = - mp_vhi p -> mp_alo p = - mp_ahi p -> mp_alo p < mp_ahi p -> apply_full_acceleration_limits (- v) (- a) p = - apply_full_acceleration_limits v a p.
Proof. unfold apply_full_acceleration_limits, apply_speed_constraint, apply_acceleration_limits. intros. cmp. Qed.

(** Obstacles whose limits of speed and acceleration are the same forwards and
    backwards. *)
Lemma C105_obstacle_pf : forall p lo hi tab c st l, lo = - hi -> mparams_ok p -> mp_vlo p = - mp_vhi p -> mp_alo p = - mp_ahi p ->
  updates (obstacle_plant p lo hi) tab c (st6_mirror st) (mirrored ocm_mirror l) = option_map st6_mirror (updates (obstacle_plant p lo hi) tab c st l).
Proof.
  intros p lo hi tab c st l -> [_ Ho] Hv Ha. unfold mirrored. apply (updates_eqv (obstacle_plant p (- hi) hi) st6_mirror st6_mirror ocm_mirror c); [affine|affine|affine|affine|].
  intros self x u. cbn [p_dynamics obstacle_plant option_map]. unfold obstacle_dynamics, st6_mirror, ocm_mirror. cbn [s_x s_y s_psi s_vx s_vy s_dpsi oc_x oc_y oc_psi]. rewrite cos_neg, sin_neg, rot_speed_mirror.
  replace (oc_x u + - s_dpsi x * - s_vy x) with (oc_x u + s_dpsi x * s_vy x) by ring. replace (- oc_y u - - s_dpsi x * s_vx x) with (- (oc_y u - s_dpsi x * s_vx x)) by ring. rewrite acc_mirror by assumption. f_equal; f_equal; ring.
Qed.

(** Rockets: the two thrusters change places. *)
Lemma C105_rocket_pf : forall p Iz l_m tab c st l,
  updates (rocket_plant p Iz l_m) tab c (rocket_mirror st) (mirrored rcm_mirror l) = option_map rocket_mirror (updates (rocket_plant p Iz l_m) tab c st l).
Proof.
  intros p Iz l_m tab c st l. unfold mirrored. apply (updates_eqv (rocket_plant p Iz l_m) rocket_mirror rocket_mirror rcm_mirror c); [affine|affine|affine|affine|].
  intros self x u. cbn [p_dynamics rocket_plant option_map]. unfold rocket_dynamics, rocket_thrust, rocket_mirror, rcm_mirror. cbn [r_x r_y r_psi r_vx r_vy r_dpsi r_ang r_m rc_l rc_r rc_dphi].
  destruct (leb (r_m x) (rp_mv p)); cbn [r_x r_y r_psi r_vx r_vy r_dpsi r_ang r_m]; rewrite ?sin_minus, ?cos_minus, ?sin_plus, ?cos_plus, ?sin_neg, ?cos_neg; f_equal; f_equal; ring.
Qed.

Lemma ang_mirror a d p : rp_lo p = - rp_hi p -> rp_dlo p = - rp_dhi p -> rp_dlo p < rp_dhi p -> apply_full_ang_vel_limits (- a) (- d) (rp_lo p) (rp_hi p) (rp_dlo p) (rp_dhi p) = - apply_full_ang_vel_limits a d (rp_lo p) (rp_hi p) (rp_dlo p) (rp_dhi p).
Proof.
  intros H1 H2 H3. unfold apply_full_ang_vel_limits. assert (E : apply_ang_vel_limits (- d) (rp_dlo p) (rp_dhi p) = - apply_ang_vel_limits d (rp_dlo p) (rp_dhi p)) by (unfold apply_ang_vel_limits; cmp). rewrite E. unfold apply_ang_constraint. cmp.
Qed.

Lemma C105_spaceship_pf : forall p Iz l_r tab c st l, rp_lo p = - rp_hi p -> rp_dlo p = - rp_dhi p -> rp_dlo p < rp_dhi p ->
  updates (spaceship_plant p Iz l_r) tab c (spaceship_mirror st) (mirrored ssc_mirror l) = option_map spaceship_mirror (updates (spaceship_plant p Iz l_r) tab c st l).
Proof.
  intros p Iz l_r tab c st l H1 H2 H3. unfold mirrored. apply (updates_eqv (spaceship_plant p Iz l_r) spaceship_mirror spaceship_mirror ssc_mirror c); [affine|affine|affine|affine|].
  intros self x u. cbn [p_dynamics spaceship_plant option_map]. unfold spaceship_dynamics, spaceship_thrust, spaceship_mirror, ssc_mirror. cbn [r_x r_y r_psi r_vx r_vy r_dpsi r_ang r_m ss_thrust ss_ddelta]. rewrite ang_mirror by assumption.
  destruct (leb (r_m x) (rp_mv p)); rewrite ?sin_neg, ?cos_neg; f_equal; f_equal; unfold Rdiv; ring.
Qed.

(** Refuted: the limits of the forward speed of an obstacle are also applied to its
    lateral speed, so an obstacle that may move faster forwards than backwards may
    also move faster to the left than to the right. *)
Lemma C105_obstacle_refuted_pf : exists p lo hi tab st l x y, lo = - hi /\ mparams_ok p /\
  updates (obstacle_plant p lo hi) tab false st l = Some x /\ s_vy x = 2 /\
  updates (obstacle_plant p lo hi) tab false (st6_mirror st) (mirrored ocm_mirror l) = Some y /\ s_vy y = -1.
Proof.
  exists (mkMP (-1) 5 (-3) 3), (-2), 2, ([[]], [1]), (mk6 0 0 0 0 1 0), [(mkOC 0 1 0, [1])]. do 2 eexists. split; [ring|]. split; [unfold mparams_ok; cbn; lra|].
  split; [cbn -[obstacle_dynamics]; reflexivity|]. split.
  { unfold obstacle_dynamics, apply_full_acceleration_limits, apply_speed_constraint, apply_acceleration_limits. cbn. cmp. }
  split; [cbn -[obstacle_dynamics]; reflexivity|]. unfold obstacle_dynamics, apply_full_acceleration_limits, apply_speed_constraint, apply_acceleration_limits. cbn. cmp.
Qed.

Lemma rk45_consistent : consistent rk45.
Proof.
  unfold consistent, rk45. cbn [fst snd length]. split; [|split; [lia|cbn; lra]].
  intros k r H. do 6 (destruct k as [|k]; [cbn in H; injection H as <-; cbn; split; [lia|lra]|]). destruct k; discriminate.
Qed.

Lemma update_vehicle g p tab x u hs : update (vehicle_plant g p) tab false x u hs = match rk_solve yadd yscale (fv g p) tab (x, u) hs with Some y => Some (fst y) | None => None end.
Proof. reflexivity. Qed.

Lemma update_bicycle g tab x u hs : update (bicycle_plant g) tab false x u hs = match rk_solve yadd yscale (fb g) tab (x, u) hs with Some y => Some (fst y) | None => None end.
Proof. reflexivity. Qed.

(** As long as no limit is reached, the planner's model predicts exactly what the
    simulator's model does, step for step, with every Runge-Kutta method whose weights
    add up to one (RK45 is one). *)
Lemma C106_same_steps_pf : forall g p tab x u hs, consistent tab -> Forall (fun h => 0 <= h) hs -> unlimited p x u (sum hs) ->
  exists y, successor_ivp g tab x u hs = Ok y /\ update (vehicle_plant g p) tab false x u hs = Some y /\ v_vx y = v_vx x + c_acc u * sum hs /\ v_delta y = v_delta x + c_ddelta u * sum hs.
Proof.
  intros g p tab x u hs C F U. destruct (solve_same g p u tab C hs (x, u) F eq_refl U) as (y & E1 & E2 & V & D). exists (fst y). unfold successor_ivp. rewrite update_bicycle, update_vehicle, E1, E2. repeat split; assumption.
Qed.

Lemma C106_rk45_pf : consistent rk45.
Proof. exact rk45_consistent. Qed.

(** The same of the exact motions. *)
Lemma C106_same_motion_pf : forall g p x x' u T, motion5 (fun t => bicycle_dynamics g (x t) u) x T -> vehicle_motion g p (fun _ => u) x' T -> x 0 = x' 0 -> unlimited p (x 0) u T ->
  forall t, 0 <= t <= T -> x t = x' t.
Proof.
  intros g p x x' u T (MX & MY & MP & MV & MD) (NX & NY & NP & NV & ND) H0 (U1 & U2 & U3 & U4 & U5 & U6).
  assert (V' : forall t, 0 <= t <= T -> v_vx (x' t) = v_vx (x 0) + c_acc u * t).
  { rewrite H0 in *. intros t Ht. apply (limited_affine (fun t => v_vx (x' t)) (fun v => apply_full_acceleration_limits v (c_acc u) (vp_m p)) (c_acc u) (mp_vlo (vp_m p)) (mp_vhi (vp_m p)) T NV); try assumption.
    - intro v. apply acc_two. assumption. - intros v A B. apply acc_up; assumption. - intros v A B. apply acc_down; assumption. }
  assert (D' : forall t, 0 <= t <= T -> v_delta (x' t) = v_delta (x 0) + c_ddelta u * t).
  { rewrite H0 in *. intros t Ht. apply (limited_affine (fun t => v_delta (x' t)) (fun d => steering_constraint d (c_ddelta u) (vp_dmax p) (vp_ddmax p)) (c_ddelta u) (- vp_dmax p) (vp_dmax p) T ND); try assumption.
    - intro v. apply steer_two. assumption. - intros v A B. apply steer_up; assumption. - intros v A B. apply steer_down; assumption. }
  assert (V : forall t, 0 <= t <= T -> v_vx (x t) = v_vx (x 0) + c_acc u * t). { apply (evolves_eq _ _ (fun t => v_vx (x 0) + c_acc u * t) (fun _ => c_acc u) T MV); [apply evolves_affine|lra|reflexivity]. }
  assert (D : forall t, 0 <= t <= T -> v_delta (x t) = v_delta (x 0) + c_ddelta u * t). { apply (evolves_eq _ _ (fun t => v_delta (x 0) + c_ddelta u * t) (fun _ => c_ddelta u) T MD); [apply evolves_affine|lra|reflexivity]. }
  assert (P : forall t, 0 <= t <= T -> v_psi (x t) = v_psi (x' t)).
  { apply (evolves_eq _ _ _ _ T MP NP); [congruence|]. intros t Ht. cbv beta. unfold bicycle_dynamics, vehicle_dynamics. cbn [v_psi]. rewrite V, D, V', D' by lra. reflexivity. }
  assert (X : forall t, 0 <= t <= T -> v_x (x t) = v_x (x' t)).
  { apply (evolves_eq _ _ _ _ T MX NX); [congruence|]. intros t Ht. cbv beta. unfold bicycle_dynamics, vehicle_dynamics. cbn [v_x]. rewrite P, V, D, V', D' by lra. reflexivity. }
  assert (Y : forall t, 0 <= t <= T -> v_y (x t) = v_y (x' t)).
  { apply (evolves_eq _ _ _ _ T MY NY); [congruence|]. intros t Ht. cbv beta. unfold bicycle_dynamics, vehicle_dynamics. cbn [v_y]. rewrite P, V, D, V', D' by lra. reflexivity. }
  intros t Ht. specialize (X t Ht). specialize (Y t Ht). specialize (P t Ht). specialize (V t Ht). specialize (V' t Ht). specialize (D t Ht). specialize (D' t Ht). destruct (x t), (x' t). cbn in *. congruence.
Qed.

Lemma rclip_in a lo hi : lo <= hi -> lo <= rclip a lo hi <= hi.
Proof. intro. unfold rclip. split; [apply Rmin_glb; [apply Rmax_r|assumption]|apply Rmin_r]. Qed.

Lemma rclip_id a lo hi : lo <= a <= hi -> rclip a lo hi = a.
Proof. intros []. unfold rclip. rewrite Rmax_left, Rmin_left by lra. reflexivity. Qed.

(** The one-step prediction always stays within the limits of speed and steering; while
    no limit is reached it is one step of Euler's method on the simulator's model. *)
Lemma C106_one_step_pf : forall g p x u dt, vpar_ok p ->
  let y := successor g p x u dt in
  within (v_vx y) (mp_vlo (vp_m p)) (mp_vhi (vp_m p)) /\ within (v_delta y) (- vp_dmax p) (vp_dmax p) /\
  (0 <= dt -> unlimited p x u dt -> update (vehicle_plant g p) ([[]], [1]) false x u [dt] = Some y).
Proof.
  intros g p x u dt [[O1 O2] [O3 O4]] y. split; [apply rclip_in; lra|]. split; [apply rclip_in; lra|]. intros Hdt (U1 & U2 & U3 & U4 & U5 & U6). unfold within, inside in *.
  assert (E : update (vehicle_plant g p) ([[]], [1]) false x u [dt] = Some (vst_add x (vst_scale (dt * 1) (vehicle_dynamics g p x u)))) by reflexivity.
  rewrite E. f_equal. unfold y, successor. rewrite (rclip_id (c_acc u)), (rclip_id (c_ddelta u)) by lra. rewrite same_rates by assumption. rewrite Rmult_1_r. unfold vst_add, vst_scale, bicycle_dynamics. cbn [v_x v_y v_psi v_vx v_delta c_acc c_ddelta]. f_equal; symmetry; apply rclip_id; lra.
Qed.

Lemma wide x u T : exists p, unlimited p x u T.
Proof.
  set (m := 1 + Rabs (c_acc u) + Rabs (c_ddelta u) + Rabs (v_vx x) + Rabs (v_vx x + c_acc u * T) + Rabs (v_delta x) + Rabs (v_delta x + c_ddelta u * T)).
  exists (mkVPR (mkMP (- m) m (- m) m) m m). pose proof (Rabs_pos (c_acc u)). pose proof (Rabs_pos (c_ddelta u)). pose proof (Rabs_pos (v_vx x)). pose proof (Rabs_pos (v_vx x + c_acc u * T)). pose proof (Rabs_pos (v_delta x)). pose proof (Rabs_pos (v_delta x + c_ddelta u * T)).
  pose proof (Rle_abs (c_acc u)). pose proof (Rle_abs (c_ddelta u)). pose proof (Rle_abs (v_vx x)). pose proof (Rle_abs (v_vx x + c_acc u * T)). pose proof (Rle_abs (v_delta x)). pose proof (Rle_abs (v_delta x + c_ddelta u * T)).
  pose proof (Rle_abs (- c_acc u)). pose proof (Rle_abs (- c_ddelta u)). pose proof (Rle_abs (- v_vx x)). pose proof (Rle_abs (- (v_vx x + c_acc u * T))). pose proof (Rle_abs (- v_delta x)). pose proof (Rle_abs (- (v_delta x + c_ddelta u * T))).
  rewrite !Rabs_Ropp in *. unfold unlimited, within, inside. cbn [vp_m vp_dmax vp_ddmax mp_vlo mp_vhi mp_alo mp_ahi]. repeat split; unfold m; lra.
Qed.

(** Speed and steering predicted by integration, whatever the limits. *)
Lemma C106_integrated_pf : forall g tab x u hs, consistent tab -> Forall (fun h => 0 <= h) hs ->
  exists y, successor_ivp g tab x u hs = Ok y /\ v_vx y = v_vx x + c_acc u * sum hs /\ v_delta y = v_delta x + c_ddelta u * sum hs.
Proof.
  intros g tab x u hs C F. destruct (wide x u (sum hs)) as [p U]. destruct (C106_same_steps_pf g p tab x u hs C F U) as (y & E & _ & V & D). exists y. auto.
Qed.

(** Refuted: the integrated prediction does not respect the limits, and then differs
    from what the simulator does. *)
Lemma C106_limits_refuted_pf : exists g p x u hs, vpar_ok p /\ within (v_vx x) (mp_vlo (vp_m p)) (mp_vhi (vp_m p)) /\ within (v_delta x) (- vp_dmax p) (vp_dmax p) /\ within (c_acc u) (mp_alo (vp_m p)) (mp_ahi (vp_m p)) /\
  within (c_ddelta u) (- vp_ddmax p) (vp_ddmax p) /\ Forall (fun h => 0 <= h) hs /\
  forall tab, consistent tab -> exists y, successor_ivp g tab x u hs = Ok y /\ mp_vhi (vp_m p) < v_vx y /\ vp_dmax p < v_delta y.
Proof.
  exists vg_car, vp_rcar, (mkV 0 0 0 36 (99 / 100)), (mkVCm 1 (1 / 2)), [1]. unfold vpar_ok, mparams_ok, vp_rcar, within. cbn [vp_m vp_dmax vp_ddmax mp_vlo mp_vhi mp_alo mp_ahi v_vx v_delta c_acc c_ddelta].
  split; [repeat split; lra|]. split; [lra|]. split; [lra|]. split; [lra|]. split; [lra|]. split; [repeat constructor; lra|]. intros tab C.
  destruct (C106_integrated_pf vg_car tab (mkV 0 0 0 36 (99 / 100)) (mkVCm 1 (1 / 2)) [1] C ltac:(repeat constructor; lra)) as (y & E & V & D). exists y. split; [exact E|]. rewrite V, D. cbn. lra.
Qed.
