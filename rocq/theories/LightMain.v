(* Generated from tools/Light.src by tools/gen_props.py. *)
(** Properties of the lights. *)
From Coq Require Import String QArith Qround ZArith List Bool Lia Lqa.
From Verif Require Import Base LightModel LightSpec LightProofs.
Import ListNotations.
Local Open Scope string_scope.

(** What is shown for a command at a time is determined, for every command and time. *)
Lemma C70_shown_pf : forall l t, (In l commands -> exists p c, shows l t p /\ colors_of p c) /\ forall p q, shows l t p -> shows l t q -> p = q.
Proof.
  intros l t. split; [|apply shows_fun]. intro I. destruct (shows_total l t I) as [p S]. destruct (shows_colors _ _ _ S) as [c C]. exists p, c. auto.
Qed.

(** The exact colours after any history of queries: the rear lights are brighter if the
    vehicle brakes, or if any vehicle has braked before while the same was shown. *)
Lemma C70_history_pf : forall qs l a t p c, shows l t p -> colors_of p c ->
  exists tab out, get_lights_colors_from_cmds (after qs) (Some l) (Some a) t = Ok (tab, Some out) /\
    let brake := (a < 0)%Q \/ exists l' a' t', In (Some l', Some a', t') qs /\ (a' < 0)%Q /\ shows l' t' p in
    (brake -> out = with_brakes c) /\ (~ brake -> out = c).
Proof.
  intros qs l a t p c S C. unfold get_lights_colors_from_cmds. destruct (after_inv qs p c C) as [[B G]|[B G]].
  - rewrite (step _ l a t p _ S G). rewrite with_brakes_idem. destruct (negb (Qle_bool 0 a)); cbn [bind fst snd]; do 2 eexists; (split; [reflexivity|]); (split; [reflexivity|]); intro N; exfalso; apply N; right; exact B.
  - rewrite (step _ l a t p _ S G). destruct (negb (Qle_bool 0 a)) eqn:E; cbn [bind fst snd]; do 2 eexists; (split; [reflexivity|]); (split; [|]).
    + reflexivity.
    + intro N. exfalso. apply N. left. apply acc_neg. exact E.
    + intros [N|N]; [apply acc_neg in N; congruence|contradiction].
    + reflexivity.
Qed.

(** So the first query, and every query for a braking vehicle, is right. *)
Lemma C70_partial_pf : forall qs l a t p c, shows l t p -> colors_of p c -> qs = [] \/ (a < 0)%Q ->
  exists tab, get_lights_colors_from_cmds (after qs) (Some l) (Some a) t = Ok (tab, Some (if Qlt_le_dec a 0 then with_brakes c else c)).
Proof.
  intros qs l a t p c S C H. destruct (C70_history_pf qs l a t p c S C) as (tab & out & E & B & N). exists tab. rewrite E. do 3 f_equal. destruct (Qlt_le_dec a 0) as [L|L].
  - apply B. left. exact L.
  - apply N. destruct H as [->|H]; [|lra]. intros [L'|(l' & a' & t' & [] & _)]. lra.
Qed.

(** But a vehicle that does not brake shows brighter rear lights after another one braked. *)
Lemma C70_refuted_pf : forall l a t p c, shows l t p -> colors_of p c -> p <> "hazard" -> (0 <= a)%Q ->
  with_brakes c <> c /\ exists qs tab, get_lights_colors_from_cmds (after qs) (Some l) (Some a) t = Ok (tab, Some (with_brakes c)).
Proof.
  intros l a t p c S C N A. split; [inversion C; subst; first [discriminate|exfalso; apply N; reflexivity]|]. exists [(Some l, Some (-1)%Q, t)]. destruct (C70_history_pf [(Some l, Some (-1)%Q, t)] l a t p c S C) as (tab & out & E & B & _). exists tab. rewrite E. do 3 f_equal. apply B. right. exists l, (-1)%Q, t. split; [left; reflexivity|]. split; [reflexivity|exact S].
Qed.

(** The front lights, and rear lights that blink, never change. *)
Lemma C70_front_pf : forall qs l a t p c tab out, shows l t p -> colors_of p c -> get_lights_colors_from_cmds (after qs) (Some l) (Some a) t = Ok (tab, Some out) ->
  front_left out = front_left c /\ front_right out = front_right c /\ (back_left c = orange -> back_left out = orange) /\ (back_right c = orange -> back_right out = orange).
Proof.
  intros qs l a t p c tab out S C E. assert (O : out = with_brakes c \/ out = c). { unfold get_lights_colors_from_cmds in E. destruct (after_inv qs p c C) as [[B G]|[B G]]; rewrite (step _ l a t p _ S G) in E; rewrite ?with_brakes_idem in E; destruct (negb (Qle_bool 0 a)); cbn [bind fst snd] in E; injection E as <- <-; auto. }
  destruct O as [-> | ->]; [|auto]. unfold with_brakes. cbn [front_left front_right back_left back_right]. split; [reflexivity|]. split; [reflexivity|]. split; intros ->; reflexivity.
Qed.

(** Commands without lights or acceleration have no colours; unknown commands are an
    error; neither has an effect. *)
Lemma C70_others_pf : forall tab t, (forall a, get_lights_colors_from_cmds tab None a t = Ok (tab, None)) /\ (forall l, get_lights_colors_from_cmds tab (Some l) None t = Ok (tab, None)) /\
  (forall l a, ~ In l commands -> get_lights_colors_from_cmds tab (Some l) (Some a) t = Err PyKeyError).
Proof.
  intros tab t. split; [reflexivity|]. split; [reflexivity|]. intros l a I. assert (NG : aget String.eqb lightscmd2phases l = None). { unfold lightscmd2phases. cbn [aget]. repeat match goal with |- context [String.eqb ?a l] => destruct (String.eqb_spec a l) as [<-|?]; [exfalso; apply I; cbn; tauto|] end. reflexivity. }
  unfold get_lights_colors_from_cmds, lights_colors_from_lights_cmd, agetE. rewrite NG. reflexivity.
Qed.
