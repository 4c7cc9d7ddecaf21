(* Generated from tools/Outline.src by tools/gen_props.py. *)
(** The bodies of the models. *)
From Coq Require Import Reals List String Lra Lia.
From Verif Require Import R2 Base GeoModel LaneModel BodyModel DynModel DrawModel OutlineSpec.
Import ListNotations.
Open Scope R_scope.
From Verif Require Import OutlineMain.

(** Rings with the same edges, or all edges turned around, enclose the same points. *)

(** C113.  The bodies of vehicles are rectangles. *)

Theorem C113_vehicle : forall g tyre radius, wheel_shape g = Ok (tyre, radius) -> 0 < g_w_half g -> 0 < g_lf g -> 0 < g_lr g ->
  exists ring x0 x1, BodyModel.outline g = Ok ring /\ bounds ring (box x0 x1 (g_w_half g + tyre)) /\
    x0 = - (g_lr g + 2 * radius) /\ x1 = g_lf g + (if four (g_type g) then g_lf g / 2 else radius) /\ vlength g = Ok (x1 - x0).
Proof. exact C113_vehicle_pf. Qed.
Print Assumptions C113_vehicle.

(** Rockets and spaceships: a box and a cone before it. *)

Theorem C113_rocket : forall union g, 0 < rg_w_half g -> 0 < rg_l_c g -> 0 < rg_l_r g + rg_l_f g + rg_l_m g ->
  exists body head, rocket_outline union g = union [body; head] /\
    bounds body (box (- rg_l_r g) (rg_l_m g + rg_l_f g) (rg_w_half g)) /\
    bounds head (cone (rg_l_m g + rg_l_f g) (rg_l_m g + rg_l_f g + rg_l_c g) (rg_w_half g)).
Proof. exact C113_rocket_pf. Qed.
Print Assumptions C113_rocket.

Theorem C113_spaceship : forall union g, 0 < hg_w_half g -> 0 < hg_l_c g -> 0 < hg_l_r g + hg_l_f g ->
  exists body head, spaceship_outline union g = union [body; head] /\
    bounds body (box (- hg_l_r g) (hg_l_f g) (hg_w_half g)) /\ bounds head (cone (hg_l_f g) (hg_l_f g + hg_l_c g) (hg_w_half g)).
Proof. exact C113_spaceship_pf. Qed.
Print Assumptions C113_spaceship.

(** Spacecraft: a box that ends a millimetre before the centre, and an ellipse around it. *)

Theorem C113_spacecraft : forall union quad w lf lr g, spacecraft_geometry_init w lf lr = Ok g -> (0 < quad)%nat -> 0 < w -> 0 < lf ->
  exists body head, spacecraft_outline union quad g = union [head; body] /\ bounds body (box (- lr) (1 / 1000) w) /\ closed head /\
    forall v, In v head -> (fst v / lf) ^ 2 + (snd v / w) ^ 2 = 1 /\ In (fst v, - snd v) head.
Proof. exact C113_spacecraft_pf. Qed.
Print Assumptions C113_spacecraft.

(** Wheels, thrusters and flames. *)

Theorem C113_parts :
  (forall g ring tyre radius, wheel_shape g = Ok (tyre, radius) -> wheel_outline g = Ok ring -> bounds ring (box (- radius) radius tyre)) /\
  (forall w l, 0 < w -> 0 < l -> bounds (nozzle_outline w l) (box 0 l w)) /\
  (forall w l Fmax F, 0 < w -> 0 < Fmax -> 0 < F -> bounds (flame_outline w l Fmax F) (cone l (l + F / Fmax / 2) w)).
Proof. exact C113_parts_pf. Qed.
Print Assumptions C113_parts.

(** Every shape is its own mirror image in the long axis of the model, and has its centre
    in it. *)

Theorem C113_mirror : forall x0 x1 w x y, (box x0 x1 w (x, y) <-> box x0 x1 w (x, - y)) /\ (cone x0 x1 w (x, y) <-> cone x0 x1 w (x, - y)).
Proof. exact C113_mirror_pf. Qed.
Print Assumptions C113_mirror.

Example C113_ex : exists g, spacecraft_geometry_init 1 1 2 = Ok g /\ 0 < rg_w_half rocket_default0 /\ 0 < rg_l_c rocket_default0 /\ 0 < rg_l_r rocket_default0 + rg_l_f rocket_default0 + rg_l_m rocket_default0 /\
  0 < hg_w_half spaceship_default0 /\ 0 < hg_l_c spaceship_default0 /\ 0 < hg_l_r spaceship_default0 + hg_l_f spaceship_default0 /\
  cone 0 2 1 (1, 1 / 2) /\ ~ cone 0 2 1 (1, 3 / 4) /\ box (-1) 2 1 (1, 3 / 4).
Proof.
  eexists. split; [unfold spacecraft_geometry_init, LaneModel.ltb, DynModel.ltb; destruct (Rlt_dec 1 2); [reflexivity|lra]|]. cbn.
  repeat (split; [lra|]). split; [exists (1 / 2); cbn; lra|]. split; [|unfold box; cbn; lra].
  intros (s & A & B & C). cbn in *. lra.
Qed.
