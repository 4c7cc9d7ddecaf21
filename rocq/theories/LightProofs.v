(** Lemmas about the lights. *)
From Coq Require Import String QArith Qround ZArith List Bool Lia Lqa.
From Verif Require Import Base LightModel LightSpec.
Import ListNotations.
Local Open Scope string_scope.

Lemma brake_brighter c : brake_side c = brighter c.
Proof. destruct c; reflexivity. Qed.
Lemma with_brakes_idem c : with_brakes (with_brakes c) = with_brakes c.
Proof. destruct c as [a b [] []]; reflexivity. Qed.

Lemma round_even q : Z.even (np_round q) = true <-> exists m : Z, (- (1 # 2) <= q - 2 * inject_Z m <= 1 # 2)%Q.
Proof.
  unfold np_round. set (f := Qfloor q). pose proof (Qfloor_le q) as F1. pose proof (Qlt_floor q) as F2. fold f in F1, F2. rewrite inject_Z_plus in F2. change (inject_Z 1) with 1%Q in F2.
  assert (U : forall m, (- (1 # 2) <= q - 2 * inject_Z m <= 1 # 2)%Q -> (2 * m = f \/ 2 * m = f + 1)%Z).
  { intros m [M1 M2]. assert (A1 : (inject_Z (2 * m) < inject_Z (f + 2))%Q) by (rewrite inject_Z_mult, inject_Z_plus; change (inject_Z 2) with 2%Q; lra). assert (A2 : (inject_Z (f - 1) < inject_Z (2 * m))%Q) by (unfold Z.sub; rewrite inject_Z_mult, inject_Z_plus, inject_Z_opp; change (inject_Z 2) with 2%Q; change (inject_Z 1) with 1%Q; lra).
    rewrite <- Zlt_Qlt in A1, A2. lia. }
  assert (EV : Z.even (f + 1) = negb (Z.even f)) by (rewrite Z.even_add; destruct (Z.even f); reflexivity).
  destruct (Z.even f) eqn:E.
  - apply Z.even_spec in E as [m E]. destruct (Qcompare_spec (q - inject_Z f) (1 # 2)) as [C|C|C].
    + destruct (Z.even f) eqn:E'; [|apply (f_equal Z.even) in E; rewrite E', Z.even_mul in E; discriminate]. split; [intros _|auto]. exists m. assert (X : (inject_Z f == 2 * inject_Z m)%Q) by (rewrite E, inject_Z_mult; reflexivity). lra.
    + split; [intros _|]. * exists m. assert (X : (inject_Z f == 2 * inject_Z m)%Q) by (rewrite E, inject_Z_mult; reflexivity). lra. * intros _. rewrite E, Z.even_mul. reflexivity.
    + rewrite EV. split; [discriminate|]. intros [m' M]. exfalso. destruct (U m' M) as [X|X]; [|lia]. assert (Y : (inject_Z f == 2 * inject_Z m')%Q) by (rewrite <- X, inject_Z_mult; reflexivity). lra.
  - assert (O : exists m, (f + 1 = 2 * m)%Z). { apply Z.even_spec. rewrite EV. reflexivity. } destruct O as [m O].
    assert (Y : (inject_Z f + 1 == 2 * inject_Z m)%Q) by (change 1%Q with (inject_Z 1); rewrite <- inject_Z_plus, O, inject_Z_mult; reflexivity).
    destruct (Qcompare_spec (q - inject_Z f) (1 # 2)) as [C|C|C].
    + rewrite EV. cbn [negb]. split; [intros _|auto]. exists m. lra.
    + rewrite E. split; [discriminate|]. intros [m' M]. exfalso. destruct (U m' M) as [X|X]; [lia|]. assert (m' = m) by lia. subst m'. lra.
    + rewrite EV. cbn [negb]. split; [intros _|auto]. exists m. lra.
Qed.

Lemma blink_even t : blink_on t <-> Z.even (np_round (t / (4 # 10))) = true.
Proof.
  rewrite round_even. unfold blink_on. assert (E : (t / (4 # 10) == t * (5 # 2))%Q) by (unfold Qdiv; apply Qmult_comp; reflexivity). split; intros [m M]; exists m; lra.
Qed.

Lemma phase2 a b t : phase_at [a; b] t = Ok (if Z.even (np_round (t / (4 # 10))) then a else b).
Proof.
  unfold phase_at. cbn [length Z.of_nat Pos.of_succ_nat Pos.succ]. set (i := np_round _). rewrite Zmod_even. destruct (Z.even i); reflexivity.
Qed.
Lemma phase1 a t : phase_at [a] t = Ok a.
Proof. unfold phase_at. cbn [length Z.of_nat Pos.of_succ_nat Pos.succ]. rewrite Z.mod_1_r. reflexivity. Qed.

Lemma shows_iff l t p : shows l t p <-> exists phases, agetE String.eqb lightscmd2phases l = Ok phases /\ phase_at phases t = Ok p.
Proof.
  split.
  - intro S. destruct S as [l t I|l t I B|l t I B].
    + destruct I as [<-|[<-|[]]]; eexists; (split; [reflexivity|apply phase1]).
    + apply blink_even in B. destruct I as [<-|[<-|[<-|[]]]]; eexists; (split; [reflexivity|rewrite phase2, B; reflexivity]).
    + rewrite blink_even in B. apply not_true_is_false in B. destruct I as [<-|[<-|[<-|[]]]]; eexists; (split; [reflexivity|rewrite phase2, B; reflexivity]).
  - intros (phases & A & P). unfold agetE, lightscmd2phases in A. cbn [aget] in A.
    repeat match type of A with context [String.eqb ?a l] => destruct (String.eqb_spec a l) as [<-|?] end; try discriminate; injection A as <-.
    + rewrite phase1 in P. injection P as <-. apply shows_steady. cbn. auto.
    + rewrite phase1 in P. injection P as <-. apply shows_steady. cbn. auto.
    + rewrite phase2 in P. destruct (Z.even _) eqn:E; injection P as <-; [apply shows_on|apply shows_off]; try (cbn; tauto); [apply blink_even; exact E|rewrite blink_even; congruence].
    + rewrite phase2 in P. destruct (Z.even _) eqn:E; injection P as <-; [apply shows_on|apply shows_off]; try (cbn; tauto); [apply blink_even; exact E|rewrite blink_even; congruence].
    + rewrite phase2 in P. destruct (Z.even _) eqn:E; injection P as <-; [apply shows_on|apply shows_off]; try (cbn; tauto); [apply blink_even; exact E|rewrite blink_even; congruence].
Qed.
Lemma shows_fun l t p q : shows l t p -> shows l t q -> p = q.
Proof. intros A B. apply shows_iff in A as (ph & A1 & A2). apply shows_iff in B as (ph' & B1 & B2). congruence. Qed.
Lemma shows_total l t : In l commands -> exists p, shows l t p.
Proof.
  intro I. destruct (Z.even (np_round (t / (4 # 10)))) eqn:E.
  - apply blink_even in E. destruct I as [<-|[<-|[<-|[<-|[<-|[]]]]]]; eexists; first [apply shows_steady; cbn; tauto|apply shows_on; [cbn; tauto|exact E]].
  - assert (N : ~ blink_on t) by (rewrite blink_even; congruence). destruct I as [<-|[<-|[<-|[<-|[<-|[]]]]]]; eexists; first [apply shows_steady; cbn; tauto|apply shows_off; [cbn; tauto|exact N]].
Qed.
Lemma shows_colors l t p : shows l t p -> exists c, colors_of p c.
Proof. intro S. destruct S as [l t I|l t I _|l t I _]; [destruct I as [<-|[<-|[]]]|destruct I as [<-|[<-|[<-|[]]]]|]; eexists; constructor. Qed.
Lemma colors_fun p c c' : colors_of p c -> colors_of p c' -> c = c'.
Proof. intros A B. inversion A; subst; inversion B; reflexivity. Qed.
Lemma colors_base p c : colors_of p c -> aget String.eqb phase2colors p = Some c.
Proof. intro A. inversion A; reflexivity. Qed.

Lemma get_set {V} (d : list (string * V)) k v k' : aget String.eqb d k <> None -> aget String.eqb (aset String.eqb d k v) k' = if String.eqb k k' then Some v else aget String.eqb d k'.
Proof.
  induction d as [|[a x] d IH]; intro H; [exfalso; apply H; reflexivity|]. cbn [aget aset] in *. destruct (String.eqb_spec a k) as [->|N]; cbn [aget].
  - destruct (String.eqb k k'); reflexivity.
  - rewrite IH by exact H. destruct (String.eqb_spec a k') as [->|N']; [|reflexivity]. destruct (String.eqb_spec k k') as [->|]; [contradiction|reflexivity].
Qed.
Lemma acc_neg a : negb (Qle_bool 0 a) = true <-> (a < 0)%Q.
Proof.
  destruct (Qle_bool 0 a) eqn:E; cbn [negb].
  - apply Qle_bool_iff in E. split; [discriminate|lra].
  - split; [intros _|reflexivity]. apply Qnot_le_lt. intro C. apply Qle_bool_iff in C. congruence.
Qed.

Definition braked (qs : list (option string * option Q * Q)) (p : string) : Prop := exists l a t, In (Some l, Some a, t) qs /\ (a < 0)%Q /\ shows l t p.

(** One query, in terms of the specification. *)
Lemma step tab l a t p c : shows l t p -> aget String.eqb tab p = Some c ->
  lights_colors_from_lights_cmd tab l a t = Ok (if negb (Qle_bool 0 a) then (aset String.eqb tab p (with_brakes c), with_brakes c) else (tab, c)).
Proof.
  intros S A. apply shows_iff in S as (phases & S1 & S2). unfold lights_colors_from_lights_cmd. rewrite S1. cbn [bind]. rewrite S2. cbn [bind]. unfold agetE. rewrite A. cbn [bind]. destruct (negb (Qle_bool 0 a)); [|reflexivity]. unfold with_brakes. rewrite !brake_brighter. reflexivity.
Qed.

Lemma after_inv qs p c : colors_of p c -> (braked qs p /\ aget String.eqb (after qs) p = Some (with_brakes c)) \/ (~ braked qs p /\ aget String.eqb (after qs) p = Some c).
Proof.
  revert p c. induction qs as [|[[l a] t] qs IH] using rev_ind; intros p c C.
  - right. split; [intros (l & a & t & [] & _)|apply (colors_base _ _ C)].
  - unfold after. rewrite fold_left_app. fold (after qs). cbn [fold_left ask].
    assert (BR : braked (qs ++ [(l, a, t)]) p <-> braked qs p \/ exists l' a', l = Some l' /\ a = Some a' /\ (a' < 0)%Q /\ shows l' t p).
    { split.
      - intros (l' & a' & t' & I & N & S). apply in_app_iff in I as [I|[[= -> -> ->]|[]]]; [left; exists l', a', t'; auto|right; exists l', a'; auto].
      - intros [(l' & a' & t' & I & N & S)|(l' & a' & -> & -> & N & S)]; [exists l', a', t'; rewrite in_app_iff; auto|exists l', a', t; rewrite in_app_iff; split; [right; left; reflexivity|auto]]. }
    destruct l as [l|]; [destruct a as [a|]|]; cbn [get_lights_colors_from_cmds].
    + destruct (in_dec string_dec l commands) as [I|I].
      * destruct (shows_total l t I) as [p' S]. destruct (shows_colors _ _ _ S) as [c' C'].
        assert (G : exists x, aget String.eqb (after qs) p' = Some x /\ (x = c' \/ x = with_brakes c')) by (destruct (IH p' c' C') as [[_ G]|[_ G]]; eexists; (split; [exact G|auto])). destruct G as (x & G & X).
        rewrite (step (after qs) l a t p' x S G). cbn [bind fst]. assert (W : with_brakes x = with_brakes c') by (destruct X as [-> | ->]; [reflexivity|apply with_brakes_idem]).
        destruct (negb (Qle_bool 0 a)) eqn:E; cbn [fst].
        -- apply acc_neg in E. rewrite get_set by congruence. destruct (String.eqb_spec p' p) as [->|N].
           ++ left. split; [apply BR; right; exists l, a; auto|]. rewrite W. rewrite (colors_fun _ _ _ C' C). reflexivity.
           ++ destruct (IH p c C) as [[B G']|[B G']]; [left; split; [apply BR; auto|exact G']|right; split; [|exact G']]. rewrite BR. intros [B'|(l' & a' & [= <-] & [= <-] & _ & S')]; [auto|]. apply N, (shows_fun _ _ _ _ S S').
        -- destruct (IH p c C) as [[B G']|[B G']]; [left; split; [apply BR; auto|exact G']|right; split; [|exact G']]. rewrite BR. intros [B'|(l' & a' & [= <-] & [= <-] & N' & S')]; [auto|]. apply acc_neg in N'. congruence.
      * assert (NG : aget String.eqb lightscmd2phases l = None). { unfold lightscmd2phases. cbn [aget]. repeat match goal with |- context [String.eqb ?a l] => destruct (String.eqb_spec a l) as [<-|?]; [exfalso; apply I; cbn; tauto|] end. reflexivity. }
        unfold lights_colors_from_lights_cmd, agetE. rewrite NG. cbn [bind]. destruct (IH p c C) as [[B G']|[B G']]; [left; split; [apply BR; auto|exact G']|right; split; [|exact G']]. rewrite BR. intros [B'|(l' & a' & [= <-] & [= <-] & N' & S')]; [auto|]. apply shows_iff in S' as (ph & S1 & _). unfold agetE in S1. rewrite NG in S1. discriminate.
    + destruct (IH p c C) as [[B G']|[B G']]; [left; split; [apply BR; auto|exact G']|right; split; [|exact G']]. rewrite BR. intros [B'|(l' & a' & _ & [=] & _)]. auto.
    + destruct (IH p c C) as [[B G']|[B G']]; [left; split; [apply BR; auto|exact G']|right; split; [|exact G']]. rewrite BR. intros [B'|(l' & a' & [=] & _)]. auto.
Qed.
