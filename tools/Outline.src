(** The bodies of the models. *)
From Coq Require Import Reals List String Lra Lia.
From Verif Require Import R2 Base GeoModel LaneModel BodyModel DynModel DrawModel OutlineSpec.
Import ListNotations.
Open Scope R_scope.
(* BODY *)

Lemma le_mul k a : 0 < k -> k * a <= 0 -> a <= 0.
Proof. intros K H. destruct (Rle_dec a 0); [assumption|]. assert (0 < k * a) by (apply Rmult_lt_0_compat; lra). lra. Qed.

Lemma ge_mul k a : 0 < k -> 0 <= k * a -> 0 <= a.
Proof. intros K H. apply Ropp_le_cancel. rewrite Ropp_0. apply (le_mul k); [exact K|]. lra. Qed.

Lemma mul_ge k a : 0 < k -> 0 <= a -> 0 <= k * a.
Proof. intros. apply Rmult_le_pos; lra. Qed.

Lemma rect_cw x0 x1 w : x0 < x1 -> 0 < w -> bounds [(x0, w); (x1, w); (x1, - w); (x0, - w); (x0, w)] (box x0 x1 w).
Proof.
  intros L W. split; [eexists _, _; split; [reflexivity|reflexivity]|]. intros [x y]. unfold box. cbn [fst snd]. split.
  - intros [H|H]; cbn [edges tl combine In] in H.
    + pose proof (H _ _ (or_introl eq_refl)) as H1. pose proof (H _ _ (or_intror (or_introl eq_refl))) as H2. pose proof (H _ _ (or_intror (or_intror (or_introl eq_refl)))) as H3. pose proof (H _ _ (or_intror (or_intror (or_intror (or_introl eq_refl))))) as H4.
      unfold side in *. cbn [fst snd] in *.
      assert (y - w <= 0) by (apply (le_mul (x1 - x0)); lra). assert (x - x1 <= 0) by (apply (le_mul (2 * w)); lra).
      assert (- (y + w) <= 0) by (apply (le_mul (x1 - x0)); lra). assert (x0 - x <= 0) by (apply (le_mul (2 * w)); lra). lra.
    + pose proof (H _ _ (or_introl eq_refl)) as H1. pose proof (H _ _ (or_intror (or_intror (or_introl eq_refl)))) as H3. unfold side in *. cbn [fst snd] in *.
      assert (0 <= y - w) by (apply (ge_mul (x1 - x0)); lra). assert (0 <= - (y + w)) by (apply (ge_mul (x1 - x0)); lra). lra.
  - intros [[A B] [C D]]. left. intros a b. cbn [edges tl combine In]. unfold side.
    pose proof (mul_ge (x1 - x0) (w - y) ltac:(lra) ltac:(lra)). pose proof (mul_ge (2 * w) (x1 - x) ltac:(lra) ltac:(lra)).
    pose proof (mul_ge (x1 - x0) (y + w) ltac:(lra) ltac:(lra)). pose proof (mul_ge (2 * w) (x - x0) ltac:(lra) ltac:(lra)).
    intros [E|[E|[E|[E|[]]]]]; injection E as <- <-; cbn [fst snd]; lra.
Qed.

Lemma tri_cw x0 x1 w : x0 < x1 -> 0 < w -> bounds [(x0, w); (x1, 0); (x0, - w); (x0, w)] (cone x0 x1 w).
Proof.
  intros L W. split; [eexists _, _; split; [reflexivity|reflexivity]|]. intros [x y]. unfold cone. cbn [fst snd].
  assert (Hs : forall s, x = x0 + s * (x1 - x0) -> s * (x1 - x0) = x - x0) by (intros; lra). split.
  - intros [H|H]; cbn [edges tl combine In] in H;
    pose proof (H _ _ (or_introl eq_refl)) as H1; pose proof (H _ _ (or_intror (or_introl eq_refl))) as H2; pose proof (H _ _ (or_intror (or_intror (or_introl eq_refl)))) as H3;
    unfold side in *; cbn [fst snd] in *; set (s := (x - x0) / (x1 - x0)); assert (E : s * (x1 - x0) = x - x0) by (unfold s; field; lra).
    + assert (x0 - x <= 0) by (apply (le_mul (2 * w)); lra).
      assert (S0 : 0 <= s) by (apply (ge_mul (x1 - x0)); lra).
      assert (y - (1 - s) * w <= 0) by (apply (le_mul (x1 - x0)); [lra|]; replace ((x1 - x0) * (y - (1 - s) * w)) with ((x1 - x0) * (y - w) + w * (s * (x1 - x0))) by ring; rewrite E; lra).
      assert (- y - (1 - s) * w <= 0) by (apply (le_mul (x1 - x0)); [lra|]; replace ((x1 - x0) * (- y - (1 - s) * w)) with ((x1 - x0) * (- y - w) + w * (s * (x1 - x0))) by ring; rewrite E; lra).
      assert (S1 : 0 <= 1 - s) by (apply (ge_mul (2 * w)); lra).
      exists s. split; [lra|]. split; lra.
    + exfalso. assert (0 <= x0 - x) by (apply (ge_mul (2 * w)); lra).
      assert (S0 : 0 <= - s) by (apply (ge_mul (x1 - x0)); lra).
      assert (0 <= y - (1 - s) * w) by (apply (ge_mul (x1 - x0)); [lra|]; replace ((x1 - x0) * (y - (1 - s) * w)) with ((x1 - x0) * (y - w) + w * (s * (x1 - x0))) by ring; rewrite E; lra).
      assert (0 <= - y - (1 - s) * w) by (apply (ge_mul (x1 - x0)); [lra|]; replace ((x1 - x0) * (- y - (1 - s) * w)) with ((x1 - x0) * (- y - w) + w * (s * (x1 - x0))) by ring; rewrite E; lra).
      assert (0 <= - (1 - s)) by (apply (ge_mul (2 * w)); lra). lra.
  - intros (s & [A B] & E & [C D]). left. intros a b. cbn [edges tl combine In]. unfold side. apply Hs in E.
    pose proof (mul_ge (x1 - x0) ((1 - s) * w - y) ltac:(lra) ltac:(lra)) as P1. replace ((x1 - x0) * ((1 - s) * w - y)) with ((x1 - x0) * (w - y) - w * (s * (x1 - x0))) in P1 by ring. rewrite E in P1.
    pose proof (mul_ge (x1 - x0) ((1 - s) * w + y) ltac:(lra) ltac:(lra)) as P2. replace ((x1 - x0) * ((1 - s) * w + y)) with ((x1 - x0) * (w + y) - w * (s * (x1 - x0))) in P2 by ring. rewrite E in P2.
    pose proof (mul_ge (2 * w) (x - x0) ltac:(lra) ltac:(rewrite <- E; apply Rmult_le_pos; lra)).
    intros [F|[F|[F|[]]]]; injection F as <- <-; cbn [fst snd]; lra.
Qed.

Lemma edges_shift a b l : edges (a :: b :: l) = (a, b) :: edges (b :: l).
Proof. reflexivity. Qed.

(** Rings with the same edges, or all edges turned around, enclose the same points. *)

Lemma encloses_same r r' : (forall a b, In (a, b) (edges r) <-> In (a, b) (edges r')) -> forall p, encloses r p <-> encloses r' p.
Proof. intros E p. unfold encloses. split; (intros [H|H]; [left|right]; intros a b I; apply H, E, I). Qed.

Lemma side_sym a b p : side b a p = - side a b p.
Proof. unfold side. ring. Qed.

Lemma encloses_turned r r' : (forall a b, In (a, b) (edges r) <-> In (b, a) (edges r')) -> forall p, encloses r p <-> encloses r' p.
Proof.
  intros E p. unfold encloses. split; (intros [H|H]; [right|left]; intros a b I).
  - apply E in I. specialize (H _ _ I). rewrite side_sym. lra.
  - apply E in I. specialize (H _ _ I). rewrite side_sym. lra.
  - rewrite side_sym. apply E, H in I. lra.
  - rewrite side_sym. apply E, H in I. lra.
Qed.

Lemma rect_cw2 x0 x1 w : x0 < x1 -> 0 < w -> bounds [(x0, - w); (x0, w); (x1, w); (x1, - w); (x0, - w)] (box x0 x1 w).
Proof.
  intros L W. split; [eexists _, _; split; reflexivity|]. intro p. rewrite <- (proj2 (rect_cw x0 x1 w L W) p). apply encloses_same. intros a b. cbn. tauto.
Qed.

Lemma rect_ccw x0 x1 w : x0 < x1 -> 0 < w -> bounds [(x0, w); (x0, - w); (x1, - w); (x1, w); (x0, w)] (box x0 x1 w).
Proof.
  intros L W. split; [eexists _, _; split; reflexivity|]. intro p. rewrite <- (proj2 (rect_cw x0 x1 w L W) p). apply encloses_turned. intros a b. cbn.
  split; (intros [H|[H|[H|[H|[]]]]]; injection H as <- <-; auto 7).
Qed.

Lemma rect_cw3 x0 x1 w : x0 < x1 -> 0 < w -> bounds [(x1, - w); (x0, - w); (x0, w); (x1, w); (x1, - w)] (box x0 x1 w).
Proof.
  intros L W. split; [eexists _, _; split; reflexivity|]. intro p. rewrite <- (proj2 (rect_cw x0 x1 w L W) p). apply encloses_same. intros a b. cbn. tauto.
Qed.

Lemma closed_seq (f : nat -> vec) n : f n = f O -> closed (map f (List.seq 0 (S n))).
Proof.
  intro E. exists (f O), (map f (List.seq 1 n)). split; [reflexivity|]. destruct n as [|n]; [reflexivity|]. rewrite seq_S, map_app. cbn [map]. rewrite last_last. exact E.
Qed.

(** C113.  The bodies of vehicles are rectangles. *)

Theorem C113_vehicle : forall g tyre radius, wheel_shape g = Ok (tyre, radius) -> 0 < g_w_half g -> 0 < g_lf g -> 0 < g_lr g ->
  exists ring x0 x1, BodyModel.outline g = Ok ring /\ bounds ring (box x0 x1 (g_w_half g + tyre)) /\
    x0 = - (g_lr g + 2 * radius) /\ x1 = g_lf g + (if four (g_type g) then g_lf g / 2 else radius) /\ vlength g = Ok (x1 - x0).
Proof.
  intros g tyre radius E W F B. assert (P : 0 < tyre /\ 0 < radius).
  { unfold wheel_shape in E. destruct (String.eqb (g_type g) "car"); [injection E as <- <-; lra|]. destruct (String.eqb (g_type g) "truck"); [injection E as <- <-; lra|].
    destruct (_ || _)%bool; [injection E as <- <-; lra|discriminate]. }
  unfold BodyModel.outline, bumpers_length. rewrite E. cbn.
  eexists _, (- (g_lr g + 2 * radius)), (g_lf g + (if four (g_type g) then g_lf g / 2 else radius)). split; [reflexivity|]. split; [|split; [reflexivity|split; [reflexivity|]]].
  - replace (- g_lr g - radius * 2) with (- (g_lr g + 2 * radius)) by ring. replace (- g_w_half g - tyre) with (- (g_w_half g + tyre)) by ring.
    apply rect_cw2; [|lra]. destruct (four _); lra.
  - unfold vlength, bumpers_length, wheelbase. rewrite E. cbn. f_equal. ring.
Qed.

(** Rockets and spaceships: a box and a cone before it. *)

Theorem C113_rocket : forall union g, 0 < rg_w_half g -> 0 < rg_l_c g -> 0 < rg_l_r g + rg_l_f g + rg_l_m g ->
  exists body head, rocket_outline union g = union [body; head] /\
    bounds body (box (- rg_l_r g) (rg_l_m g + rg_l_f g) (rg_w_half g)) /\
    bounds head (cone (rg_l_m g + rg_l_f g) (rg_l_m g + rg_l_f g + rg_l_c g) (rg_w_half g)).
Proof.
  intros union g W C L. eexists _, _. split; [reflexivity|]. rewrite (Rplus_comm (rg_l_f g)). split; [apply rect_cw; lra|apply tri_cw; lra].
Qed.

Theorem C113_spaceship : forall union g, 0 < hg_w_half g -> 0 < hg_l_c g -> 0 < hg_l_r g + hg_l_f g ->
  exists body head, spaceship_outline union g = union [body; head] /\
    bounds body (box (- hg_l_r g) (hg_l_f g) (hg_w_half g)) /\ bounds head (cone (hg_l_f g) (hg_l_f g + hg_l_c g) (hg_w_half g)).
Proof. intros union g W C L. eexists _, _. split; [reflexivity|]. split; [apply rect_cw; lra|apply tri_cw; lra]. Qed.

(** Spacecraft: a box that ends a millimetre ahead of the centre, and an ellipse around the centre. *)

Theorem C113_spacecraft : forall union quad w lf lr g, spacecraft_geometry_init w lf lr = Ok g -> (0 < quad)%nat -> 0 < w -> 0 < lf ->
  exists body head, spacecraft_outline union quad g = union [head; body] /\ bounds body (box (- lr) (1 / 1000) w) /\ closed head /\
    forall v, In v head -> (fst v / lf) ^ 2 + (snd v / w) ^ 2 = 1 /\ In (fst v, - snd v) head.
Proof.
  intros union quad w lf lr g I Q W F. unfold spacecraft_geometry_init, LaneModel.ltb, DynModel.ltb in I. destruct (Rlt_dec lf lr) as [L|]; [|discriminate]. injection I as <-.
  eexists _, _. split; [reflexivity|]. cbn [sg_lr sg_w_half sg_lf]. split; [apply rect_ccw; lra|].
  assert (Qp : 0 < INR quad) by (apply lt_0_INR; exact Q).
  assert (T : INR (4 * quad) * (PI / (2 * INR quad)) = 2 * PI) by (rewrite mult_INR; cbn; field; lra).
  split.
  - unfold scale, circle. rewrite map_map, Nat.add_1_r. apply closed_seq. cbn [fst snd]. rewrite T. cbn [INR]. rewrite Rmult_0_l, cos_2PI, sin_2PI, cos_0, sin_0. reflexivity.
  - intros v I. unfold scale, circle in *. rewrite map_map in I. apply in_map_iff in I as (k & Ev & Ik). apply in_seq in Ik. subst v. cbn [fst snd]. split.
    + set (a := INR k * (PI / (2 * INR quad))). replace (lf / w * (w * cos a) / lf) with (cos a) by (field; lra). replace (1 * - (w * sin a) / w) with (- sin a) by (field; lra).
      pose proof (sin2_cos2 a) as H. unfold Rsqr in H. nra.
    + rewrite map_map. apply in_map_iff. exists (4 * quad - k)%nat. split; [|apply in_seq; lia]. cbn [fst snd]. rewrite minus_INR by lia.
      replace ((INR (4 * quad) - INR k) * (PI / (2 * INR quad))) with (2 * PI - INR k * (PI / (2 * INR quad))) by (rewrite <- T; ring).
      rewrite cos_minus, sin_minus, cos_2PI, sin_2PI. f_equal; ring.
Qed.

(** Wheels, thrusters and flames. *)

Theorem C113_parts :
  (forall g ring tyre radius, wheel_shape g = Ok (tyre, radius) -> wheel_outline g = Ok ring -> bounds ring (box (- radius) radius tyre)) /\
  (forall w l, 0 < w -> 0 < l -> bounds (nozzle_outline w l) (box 0 l w)) /\
  (forall w l Fmax F, 0 < w -> 0 < Fmax -> 0 < F -> bounds (flame_outline w l Fmax F) (cone l (l + F / Fmax / 2) w)).
Proof.
  split; [|split].
  - intros g ring tyre radius E O. assert (P : 0 < tyre /\ 0 < radius).
    { unfold wheel_shape in E. destruct (String.eqb (g_type g) "car"); [injection E as <- <-; lra|]. destruct (String.eqb (g_type g) "truck"); [injection E as <- <-; lra|].
      destruct (_ || _)%bool; [injection E as <- <-; lra|discriminate]. }
    unfold wheel_outline in O. rewrite E in O. cbn in O. injection O as <-. unfold wheel_ring. apply rect_cw3; lra.
  - intros w l W L. apply rect_cw2; lra.
  - intros w l Fm F W M P. assert (0 < F / Fm / 2) by (repeat apply Rdiv_lt_0_compat; lra).
    unfold flame_outline. rewrite Rplus_comm. pose proof (tri_cw l (l + F / Fm / 2) w ltac:(lra) W) as [_ B]. split; [eexists _, _; split; reflexivity|]. intro p. rewrite <- B.
    apply encloses_turned. intros a b. cbn. split; (intros [E|[E|[E|[]]]]; injection E as <- <-; auto 7).
Qed.

(** Every shape is its own mirror image in the long axis of the model. *)

Theorem C113_mirror : forall x0 x1 w x y, (box x0 x1 w (x, y) <-> box x0 x1 w (x, - y)) /\ (cone x0 x1 w (x, y) <-> cone x0 x1 w (x, - y)).
Proof.
  intros. unfold box, cone. cbn [fst snd]. split; [lra|]. split; intros (s & A & B & C); exists s; (split; [exact A|split; [exact B|lra]]).
Qed.

Example C113_ex : exists g, spacecraft_geometry_init 1 1 2 = Ok g /\ 0 < rg_w_half rocket_default0 /\ 0 < rg_l_c rocket_default0 /\ 0 < rg_l_r rocket_default0 + rg_l_f rocket_default0 + rg_l_m rocket_default0 /\
  0 < hg_w_half spaceship_default0 /\ 0 < hg_l_c spaceship_default0 /\ 0 < hg_l_r spaceship_default0 + hg_l_f spaceship_default0 /\
  cone 0 2 1 (1, 1 / 2) /\ ~ cone 0 2 1 (1, 3 / 4) /\ box (-1) 2 1 (1, 3 / 4).
Proof.
  eexists. split; [unfold spacecraft_geometry_init, LaneModel.ltb, DynModel.ltb; destruct (Rlt_dec 1 2); [reflexivity|lra]|]. cbn.
  repeat (split; [lra|]). split; [exists (1 / 2); cbn; lra|]. split; [|unfold box; cbn; lra].
  intros (s & A & B & C). cbn in *. lra.
Qed.
