(* Generated from tools/Light.src by tools/gen_props.py. *)
(** Properties of the lights. *)
From Coq Require Import String QArith Qround ZArith List Bool Lia Lqa.
From Verif Require Import Base LightModel LightSpec LightProofs.
Import ListNotations.
Local Open Scope string_scope.
From Verif Require Import LightMain.

(** ** C70 *)

(** What is shown for a command at a time is determined, for every command and time. *)
Theorem C70_shown : forall l t, (In l commands -> exists p c, shows l t p /\ colors_of p c) /\ forall p q, shows l t p -> shows l t q -> p = q.
Proof. exact C70_shown_pf. Qed.
Print Assumptions C70_shown.

(** The exact colours after any history of queries: the rear lights are brighter if the
    vehicle brakes, or if any vehicle has braked before while the same was shown. *)
Theorem C70_history : forall qs l a t p c, shows l t p -> colors_of p c ->
  exists tab out, get_lights_colors_from_cmds (after qs) (Some l) (Some a) t = Ok (tab, Some out) /\
    let brake := (a < 0)%Q \/ exists l' a' t', In (Some l', Some a', t') qs /\ (a' < 0)%Q /\ shows l' t' p in
    (brake -> out = with_brakes c) /\ (~ brake -> out = c).
Proof. exact C70_history_pf. Qed.
Print Assumptions C70_history.

(** So the first query, and every query for a braking vehicle, is right. *)
Theorem C70_partial : forall qs l a t p c, shows l t p -> colors_of p c -> qs = [] \/ (a < 0)%Q ->
  exists tab, get_lights_colors_from_cmds (after qs) (Some l) (Some a) t = Ok (tab, Some (if Qlt_le_dec a 0 then with_brakes c else c)).
Proof. exact C70_partial_pf. Qed.
Print Assumptions C70_partial.

(** But a vehicle that does not brake shows brighter rear lights after another one braked. *)
Theorem C70_refuted : forall l a t p c, shows l t p -> colors_of p c -> p <> "hazard" -> (0 <= a)%Q ->
  with_brakes c <> c /\ exists qs tab, get_lights_colors_from_cmds (after qs) (Some l) (Some a) t = Ok (tab, Some (with_brakes c)).
Proof. exact C70_refuted_pf. Qed.
Print Assumptions C70_refuted.

(** The front lights, and rear lights that blink, never change. *)
Theorem C70_front : forall qs l a t p c tab out, shows l t p -> colors_of p c -> get_lights_colors_from_cmds (after qs) (Some l) (Some a) t = Ok (tab, Some out) ->
  front_left out = front_left c /\ front_right out = front_right c /\ (back_left c = orange -> back_left out = orange) /\ (back_right c = orange -> back_right out = orange).
Proof. exact C70_front_pf. Qed.
Print Assumptions C70_front.

(** Commands without lights or acceleration have no colours; unknown commands are an
    error; neither has an effect. *)
Theorem C70_others : forall tab t, (forall a, get_lights_colors_from_cmds tab None a t = Ok (tab, None)) /\ (forall l, get_lights_colors_from_cmds tab (Some l) None t = Ok (tab, None)) /\
  (forall l a, ~ In l commands -> get_lights_colors_from_cmds tab (Some l) (Some a) t = Err PyKeyError).
Proof. exact C70_others_pf. Qed.
Print Assumptions C70_others.

Example C70_ex : blink_on 0 /\ blink_on (9 # 10) /\ ~ blink_on (4 # 10) /\ shows "turn_left" (9 # 10) "turn_left" /\ colors_of "turn_left" (mkLC orange white orange red) /\ "turn_left" <> "hazard" /\
  get_lights_colors_from_cmds (after [(Some "none", Some (-1)%Q, 0%Q)]) (Some "turn_left") (Some 1%Q) (4 # 10) = Ok (after [(Some "none", Some (-1)%Q, 0%Q)], Some (mkLC white white red_more red_more)).
Proof.
  split; [apply blink_even; reflexivity|]. assert (B : blink_on (9 # 10)) by (apply blink_even; reflexivity). split; [exact B|]. split; [rewrite blink_even; discriminate|]. split; [apply shows_on; [cbn; auto|exact B]|]. split; [constructor|]. split; [discriminate|reflexivity].
Qed.
