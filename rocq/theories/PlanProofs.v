From Coq Require Import QArith Qcanon ZArith List Bool Arith Lia Sorted.
From Verif Require Import Base Num SeqModel SeqSpec SeqProofs SeqProofs2 VehState TrajModel TrajSpec TrajProofs PlanModel PlanSpec.
Import ListNotations.
Open Scope Qc_scope.

Lemma qz_inj a b : qz a = qz b -> a = b.
Proof.
  unfold qz. intro H. assert (E : (inject_Z a == inject_Z b)%Q).
  { apply (f_equal this) in H. cbn in H. rewrite <- (Qred_correct (inject_Z a)), <- (Qred_correct (inject_Z b)).
    change (this (Q2Qc (inject_Z a)) == this (Q2Qc (inject_Z b)))%Q. cbn. rewrite H. reflexivity. }
  apply (proj1 (inject_Z_injective a b)). exact E.
Qed.
Lemma qz_le a b : (a <= b)%Z -> qz a <= qz b.
Proof.
  intro H. unfold qz, Qcle. change (Qred (inject_Z a) <= Qred (inject_Z b))%Q. rewrite !Qred_correct, <- Zle_Qle. exact H.
Qed.
Lemma qz_lt a b : (a < b)%Z -> qz a < qz b.
Proof.
  intro H. unfold qz, Qclt. change (Qred (inject_Z a) < Qred (inject_Z b))%Q. rewrite !Qred_correct, <- Zlt_Qlt. exact H.
Qed.

Lemma linspace_in lo hi n l x : linspace lo hi n = Ok l -> In x l <-> on_grid (lo, hi, n) x.
Proof.
  unfold linspace. destruct (n <? 0)%Z eqn:E; [discriminate|]. intros [= <-]. apply Z.ltb_ge in E.
  rewrite in_map_iff. unfold on_grid. split.
  - intros (i & <- & Hi). apply in_seq in Hi. destruct (Z.eq_dec n 1) as [->|N].
    + left. split; [reflexivity|]. assert (i = 0)%nat as -> by lia. rewrite qn_0. ring.
    + right. split; [lia|]. exists (Z.of_nat i). split; [lia|]. unfold qn.
      assert (qz (n - 1) <> 0). { intro C. change 0 with (qz 0) in C. apply qz_inj in C. lia. }
      field. assumption.
  - intros [[-> ->]|(Hn & i & Hi & ->)].
    + exists 0%nat. split; [rewrite qn_0; ring|]. apply in_seq. cbn. lia.
    + exists (Z.to_nat i). split; [|apply in_seq; lia]. unfold qn. rewrite Z2Nat.id by lia.
      assert (qz (n - 1) <> 0). { intro C. change 0 with (qz 0) in C. apply qz_inj in C. lia. }
      field. assumption.
Qed.
Lemma linspace3_in r l x : linspace3 r = Ok l -> In x l <-> on_grid r x.
Proof. destruct r as [[lo hi] n]. apply linspace_in. Qed.
Lemma linspace3_total r : (0 <= snd r)%Z -> exists l, linspace3 r = Ok l /\ length l = Z.to_nat (snd r).
Proof.
  destruct r as [[lo hi] n]. cbn. intro H. unfold linspace. destruct (n <? 0)%Z eqn:E; [apply Z.ltb_lt in E; lia|].
  eexists. split; [reflexivity|]. rewrite map_length, seq_length. reflexivity.
Qed.
Lemma linspace3_neg r : (snd r < 0)%Z -> linspace3 r = Err PyValueError.
Proof. destruct r as [[lo hi] n]. cbn. intro H. unfold linspace. apply Z.ltb_lt in H. rewrite H. reflexivity. Qed.

Lemma grid_bounds r x : rlo r <= rhi r -> on_grid r x -> rlo r <= x /\ x <= rhi r.
Proof.
  destruct r as [[lo hi] n]. unfold rlo, rhi; cbn. intros H [[_ ->]|(Hn & i & Hi & ->)]; [split; [apply Qcle_refl|exact H]|].
  assert (P : 0 < qz (n - 1)). { change 0 with (qz 0). apply qz_lt. lia. }
  assert (A : 0 <= qz i). { change 0 with (qz 0). apply qz_le. lia. }
  assert (B : qz i <= qz (n - 1)) by (apply qz_le; lia).
  assert (Z : qz (n - 1) <> 0) by (intro C; qlra).
  set (s := qz i / qz (n - 1)). assert (E : s * qz (n - 1) = qz i) by (unfold s; field; exact Z).
  assert (S0 : 0 <= s). { apply Qcnot_lt_le. intro C. assert (s * qz (n - 1) < 0) by qnra. qlra. }
  assert (S1 : s <= 1). { apply Qcnot_lt_le. intro C. assert (qz (n - 1) < s * qz (n - 1)) by qnra. qlra. }
  split; qnra.
Qed.

Lemma rollout_spec f c dt : forall n s k l, rollout f c dt s k n = Ok l ->
  exists ss, driven f c dt s (s :: ss) /\ length ss = n /\ map snd l = ss /\
    map fst l = map (fun k => qn k * dt) (List.seq k n).
Proof.
  induction n as [|n IH]; intros s k l H; cbn [rollout] in H.
  - injection H as <-. exists []. repeat split. constructor.
  - destruct (f s c dt) as [s'|] eqn:E; [|discriminate]. destruct (rollout f c dt s' (S k) n) as [r|] eqn:R; [|discriminate].
    injection H as <-. destruct (IH _ _ _ R) as (ss & D & L & M1 & M2).
    exists (s' :: ss). cbn [map snd fst length List.seq]. split; [eapply driven_step; eassumption|].
    split; [congruence|]. split; congruence.
Qed.
Lemma rollout_complete f c dt : forall n s k ss, driven f c dt s (s :: ss) -> length ss = n ->
  rollout f c dt s k n = Ok (combine (map (fun k => qn k * dt) (List.seq k n)) ss).
Proof.
  induction n as [|n IH]; intros s k ss D L.
  - destruct ss; [reflexivity|discriminate].
  - destruct ss as [|s' ss]; [discriminate|]. inversion D as [|? x ? E D']; subst.
    assert (x = s') as -> by (inversion D'; reflexivity). cbn [rollout]. rewrite E.
    rewrite (IH s' (S k) ss D'); [reflexivity|]. cbn in L. lia.
Qed.

Lemma map_fst_combine {A B} (l : list A) (m : list B) : length l = length m -> map fst (combine l m) = l.
Proof. revert m; induction l as [|x l IH]; intros [|y m] H; try discriminate; [reflexivity|]. cbn. f_equal. apply IH. cbn in H. lia. Qed.
Lemma map_snd_combine {A B} (l : list A) (m : list B) : length l = length m -> map snd (combine l m) = m.
Proof. revert m; induction l as [|x l IH]; intros [|y m] H; try discriminate; [reflexivity|]. cbn. f_equal. apply IH. cbn in H. lia. Qed.

Lemma ticks_Inc dt k n : 0 < dt -> Inc (map (fun k => qn k * dt) (List.seq k n)).
Proof.
  intro P. revert k; induction n as [|n IH]; intro k; cbn [List.seq map]; [constructor|].
  constructor; [apply IH|]. rewrite Forall_forall. intros x Hx. apply in_map_iff in Hx as (m & <- & Hm). apply in_seq in Hm.
  assert (B : qn k < qn m) by (apply qn_lt; lia). qnra.
Qed.

Lemma driven_head f c dt s l : driven f c dt s l -> exists r, l = s :: r.
Proof. inversion 1; eauto. Qed.

Lemma traj_of_drive f c dt n s t : 0 < dt -> drives f c dt n s t -> typed t = true -> WF t ->
  exists l, rollout f c dt s 1 n = Ok l /\ new_traj (0 :: map fst l) (s :: map snd l) = Ok t.
Proof.
  intros P (l & D & L & E) Ty W. destruct (driven_head _ _ _ _ _ D) as [r ->].
  assert (Lr : length r = n) by (cbn in L; lia).
  eexists. split; [apply rollout_complete; eassumption|].
  rewrite map_fst_combine, map_snd_combine by (rewrite map_length, seq_length; symmetry; exact Lr).
  assert (T : 0 :: map (fun k => qn k * dt) (List.seq 1 n) = map (fun k => qn k * dt) (List.seq 0 (S n))).
  { cbn [List.seq map]. f_equal. rewrite qn_0. ring. }
  rewrite T. assert (N : new_traj (map (fun k => qn k * dt) (List.seq 0 (S n))) (s :: r) =
     Ok (mkSeq (map (fun k => qn k * dt) (List.seq 0 (S n))) (s :: r) true)).
  { apply new_seq_ok; [rewrite map_length, seq_length; cbn; congruence|apply ticks_Inc; exact P]. }
  rewrite N. f_equal. apply seq_ext; [|exact W| |symmetry; exact Ty].
  - split; [cbn [tss vals]; rewrite map_length, seq_length; cbn; congruence|apply ticks_Inc; exact P].
  - rewrite E. reflexivity.
Qed.

Lemma drive_of_traj f c dt n s l t : 0 < dt -> rollout f c dt s 1 n = Ok l ->
  new_traj (0 :: map fst l) (s :: map snd l) = Ok t -> drives f c dt n s t /\ typed t = true /\ WF t.
Proof.
  intros P R N. destruct (rollout_spec f c dt n s 1 l R) as (ss & D & L & M1 & M2). subst ss.
  pose proof (new_seq_WF _ _ _ _ N) as W. apply new_seq_inv in N as (_ & _ & ->).
  split; [|split; [reflexivity|exact W]]. exists (s :: map snd l). split; [exact D|]. split; [cbn; congruence|].
  unfold iter; cbn [tss vals]. f_equal. rewrite M2. cbn [List.seq map]. f_equal. rewrite qn_0. ring.
Qed.

Lemma new_traj_total f c dt n s l : 0 < dt -> rollout f c dt s 1 n = Ok l ->
  exists t, new_traj (0 :: map fst l) (s :: map snd l) = Ok t.
Proof.
  intros P R. destruct (rollout_spec f c dt n s 1 l R) as (ss & D & L & M1 & M2).
  eexists. apply new_seq_ok; [cbn; rewrite !map_length; reflexivity|].
  rewrite M2. assert (T : 0 :: map (fun k => qn k * dt) (List.seq 1 n) = map (fun k => qn k * dt) (List.seq 0 (S n))).
  { cbn [List.seq map]. f_equal. rewrite qn_0. ring. }
  rewrite T. apply ticks_Inc; exact P.
Qed.

Lemma omap_in {A} (l : list (option A)) x : In x (omap l) <-> In (Some x) l.
Proof.
  unfold omap. rewrite in_flat_map. split.
  - intros ([y|] & H & Hx); [|destruct Hx]. destruct Hx as [<-|[]]. exact H.
  - intro H. exists (Some x). split; [exact H|left; reflexivity].
Qed.

Lemma rmapM_in {A B} (f : A -> result B) l ys : rmapM f l = Ok ys ->
  forall y, In y ys <-> exists x, In x l /\ f x = Ok y.
Proof.
  revert ys; induction l as [|x l IH]; intros ys H y; cbn in H.
  - injection H as <-. split; [intros []|intros (? & [] & _)].
  - destruct (f x) as [z|] eqn:E; [|discriminate]. destruct (rmapM f l) as [zs|]; [|discriminate]. injection H as <-.
    cbn. rewrite (IH zs eq_refl y). split.
    + intros [<-|(w & Hw & Ew)]; [exists x; auto|exists w; auto].
    + intros (w & [<-|Hw] & Ew); [left; congruence|right; eauto].
Qed.
Lemma rmapM_total {A B} (f : A -> result B) l : (forall x, In x l -> exists y, f x = Ok y) -> exists ys, rmapM f l = Ok ys.
Proof.
  induction l as [|x l IH]; intro H; [exists []; reflexivity|]. cbn. destruct (H x (or_introl eq_refl)) as [y ->].
  destruct IH as [ys ->]; [intros z Hz; apply H; right; exact Hz|]. eauto.
Qed.

Lemma check_spec p vp v0 v1 d0 d1 : 0 < gp_dt p -> (1 <= gp_steps p)%Z ->
  forall acc rate, check_input_constraints p vp v0 v1 d0 d1 = Some (acc, rate) <->
    acc = (v1 - v0) / (gp_dt p * qz (gp_steps p)) /\ rate = (d1 - d0) / (gp_dt p * qz (gp_steps p)) /\
    in_limits vp (mkVC acc rate).
Proof.
  intros P Hn acc rate. unfold check_input_constraints. cbv zeta.
  assert (Q : 0 < qz (gp_steps p)). { change 0 with (qz 0). apply qz_lt. lia. }
  assert (H : 0 < gp_dt p * qz (gp_steps p)) by qnra.
  destruct (qeqb _ 0) eqn:E; [apply qeqb_eq in E; rewrite E in H; exfalso; exact (Qclt_not_eq _ _ H eq_refl)|].
  unfold in_limits. cbn [vc_acc vc_ddelta].
  set (a := (v1 - v0) / (gp_dt p * qz (gp_steps p))). set (r := (d1 - d0) / (gp_dt p * qz (gp_steps p))).
  destruct (qleb (- vp_ddelta_max vp) r) eqn:E1, (qleb r (vp_ddelta_max vp)) eqn:E2, (qleb (vp_acc_lo vp) a) eqn:E3,
    (qleb a (vp_acc_hi vp)) eqn:E4; cbn [andb negb orb];
    repeat match goal with H : qleb _ _ = true |- _ => apply qleb_le in H | H : qleb _ _ = false |- _ => apply qleb_gt in H end;
    (split; [first [discriminate|intros [= <- <-]; auto 8]|
      intros (-> & -> & X1 & X2 & X3 & X4); first [reflexivity|exfalso; eapply Qclt_not_le; eassumption]]).
Qed.

Lemma generate_spec p vp f x0 mps : 0 < gp_dt p -> (1 <= gp_steps p)%Z -> mp_generate p vp f x0 = Ok mps ->
  forall t, In t mps <-> typed t = true /\ WF t /\ exists s v1 d1 c, start_state p x0 s /\ on_grid (gp_a p) v1 /\ on_grid (gp_b p) d1 /\
    c = mkVC ((v1 - vs_vx s) / (gp_dt p * qz (gp_steps p))) ((d1 - vs_delta s) / (gp_dt p * qz (gp_steps p))) /\
    in_limits vp c /\ drives f c (gp_dt p) (Z.to_nat (gp_steps p)) s t.
Proof.
  intros P Hn H t. unfold mp_generate in H.
  destruct (linspace3 (gp_a p)) as [vs|] eqn:Ea; [|discriminate]. destruct (linspace3 (gp_b p)) as [ds|] eqn:Eb; [|discriminate].
  cbv zeta in H.
  destruct (rmapM _ _) as [l|] eqn:R in H; [|discriminate]. injection H as <-. rewrite omap_in, (rmapM_in _ _ _ R).
  assert (Ga : forall x, In x vs <-> on_grid (gp_a p) x) by (intro x; apply linspace3_in; exact Ea).
  assert (Gb : forall x, In x ds <-> on_grid (gp_b p) x) by (intro x; apply linspace3_in; exact Eb).
  split.
  - intros ([[v0 d0] [v1 d1]] & Hin & E). apply in_prod_iff in Hin as [Hi Ht].
    apply in_prod_iff in Hi as [Hv0 Hd0], Ht as [Hv1 Hd1]. apply Ga in Hv1. apply Gb in Hd1.
    unfold primitive1 in E.
    destruct (check_input_constraints p vp v0 v1 d0 d1) as [[acc rate]|] eqn:C; [|discriminate].
    apply (check_spec p vp v0 v1 d0 d1 P Hn) in C as (-> & -> & Lim). cbv zeta in E.
    set (s := match x0 with None => mkVS 0 0 0 v0 d0 | Some x => x end) in *.
    destruct (rollout _ _ _ _ _ _) as [r|] eqn:Ro in E; [|discriminate].
    destruct (new_traj _ _) as [t'|] eqn:N in E; [|discriminate]. injection E as ->.
    destruct (drive_of_traj _ _ _ _ _ _ _ P Ro N) as (D & Ty & W). split; [exact Ty|]. split; [exact W|].
    assert (Sv : vs_vx s = v0 /\ vs_delta s = d0 /\ start_state p x0 s).
    { unfold s. destruct x0 as [x|]; cbn.
      - destruct Hv0 as [<-|[]], Hd0 as [<-|[]]. auto.
      - apply Ga in Hv0. apply Gb in Hd0. auto 10. }
    destruct Sv as (S1 & S2 & S3). exists s, v1, d1. eexists. split; [exact S3|]. split; [exact Hv1|]. split; [exact Hd1|].
    split; [rewrite S1, S2; reflexivity|]. split; assumption.
  - intros (Ty & W & s & v1 & d1 & c & Ss & G1 & G2 & -> & Lim & D).
    exists ((vs_vx s, vs_delta s), (v1, d1)). split.
    + apply in_prod_iff. split; apply in_prod_iff; [|split; [apply Ga; exact G1|apply Gb; exact G2]].
      destruct x0 as [x|]; cbn in Ss; [subst; split; left; reflexivity|]. destruct Ss as (_ & _ & _ & A & B).
      split; [apply Ga; exact A|apply Gb; exact B].
    + unfold primitive1. rewrite (proj2 (check_spec p vp _ _ _ _ P Hn _ _) (conj eq_refl (conj eq_refl Lim))). cbv zeta.
      assert (Es : match x0 with None => mkVS 0 0 0 (vs_vx s) (vs_delta s) | Some x => x end = s).
      { destruct x0 as [x|]; cbn in Ss; [congruence|]. destruct Ss as (A & B & C & _ & _). destruct s; cbn in *. congruence. }
      rewrite Es. destruct (traj_of_drive _ _ _ _ _ _ P D Ty W) as (l' & R1 & R2). rewrite R1, R2. reflexivity.
Qed.

Lemma generate_total p vp f x0 : 0 < gp_dt p -> (0 <= snd (gp_a p))%Z -> (0 <= snd (gp_b p))%Z ->
  (forall s c, exists s', f s c (gp_dt p) = Ok s') -> exists mps, mp_generate p vp f x0 = Ok mps.
Proof.
  intros P Ha Hb Hf. unfold mp_generate. destruct (linspace3_total _ Ha) as (vs & -> & _).
  destruct (linspace3_total _ Hb) as (ds & -> & _). cbv zeta.
  match goal with |- context [rmapM ?g ?l] => destruct (rmapM_total g l) as [ys ->]; [|eauto] end.
  intros [[v0 d0] [v1 d1]] _. unfold primitive1. destruct (check_input_constraints _ _ _ _ _ _) as [[acc rate]|]; [|eauto].
  cbv zeta.
  set (s := match x0 with None => mkVS 0 0 0 v0 d0 | Some x => x end). clearbody s.
  assert (Q : forall n s k, exists l, rollout f (mkVC acc rate) (gp_dt p) s k n = Ok l).
  { induction n as [|n IH]; intros s1 k; cbn; [eauto|]. destruct (Hf s1 (mkVC acc rate)) as [s2 ->].
    destruct (IH s2 (S k)) as [l ->]. eauto. }
  destruct (Q (Z.to_nat (gp_steps p)) s 1%nat) as [l El]. rewrite El.
  destruct (new_traj_total _ _ _ _ _ _ P El) as [t ->]. eauto.
Qed.

Lemma generate_ok_drive p vp f x0 mps : 0 < gp_dt p -> (1 <= gp_steps p)%Z -> mp_generate p vp f x0 = Ok mps ->
  forall s v1 d1 c, start_state p x0 s -> on_grid (gp_a p) v1 -> on_grid (gp_b p) d1 ->
    c = mkVC ((v1 - vs_vx s) / (gp_dt p * qz (gp_steps p))) ((d1 - vs_delta s) / (gp_dt p * qz (gp_steps p))) ->
    in_limits vp c -> exists t, drives f c (gp_dt p) (Z.to_nat (gp_steps p)) s t /\ typed t = true /\ WF t.
Proof.
  intros P Hn H s v1 d1 c Ss G1 G2 -> Lim. unfold mp_generate in H.
  destruct (linspace3 (gp_a p)) as [vs|] eqn:Ea; [|discriminate]. destruct (linspace3 (gp_b p)) as [ds|] eqn:Eb; [|discriminate].
  cbv zeta in H. destruct (rmapM _ _) as [l|] eqn:R in H; [|discriminate].
  assert (Ga : forall x, In x vs <-> on_grid (gp_a p) x) by (intro x; apply linspace3_in; exact Ea).
  assert (Gb : forall x, In x ds <-> on_grid (gp_b p) x) by (intro x; apply linspace3_in; exact Eb).
  assert (Hin : In ((vs_vx s, vs_delta s), (v1, d1)) (list_prod (list_prod
      match x0 with Some x => [vs_vx x] | None => vs end match x0 with Some x => [vs_delta x] | None => ds end) (list_prod vs ds))).
  { apply in_prod_iff. split; apply in_prod_iff; [|split; [apply Ga; exact G1|apply Gb; exact G2]].
    destruct x0 as [x|]; cbn in Ss; [subst; split; left; reflexivity|]. destruct Ss as (_ & _ & _ & A & B).
    split; [apply Ga; exact A|apply Gb; exact B]. }
  assert (X : exists o, primitive1 p vp f x0 ((vs_vx s, vs_delta s), (v1, d1)) = Ok o).
  { clear -R Hin. revert l R. induction (list_prod _ _) as [|z m IH]; intros l R; [destruct Hin|].
    cbn in R. destruct (primitive1 p vp f x0 z) as [y|] eqn:E; [|discriminate]. destruct (rmapM _ m) as [ys|] eqn:Q; [|discriminate].
    destruct Hin as [->|Hin]; [eauto|]. eapply IH; [exact Hin|reflexivity]. }
  destruct X as [o E]. unfold primitive1 in E.
  rewrite (proj2 (check_spec p vp _ _ _ _ P Hn _ _) (conj eq_refl (conj eq_refl Lim))) in E. cbv zeta in E.
  assert (Es : match x0 with None => mkVS 0 0 0 (vs_vx s) (vs_delta s) | Some x => x end = s).
  { destruct x0 as [x|]; cbn in Ss; [congruence|]. destruct Ss as (A & B & C & _ & _). destruct s; cbn in *. congruence. }
  rewrite Es in E. destruct (rollout _ _ _ _ _ _) as [r|] eqn:Ro in E; [|discriminate].
  destruct (new_traj _ _) as [t'|] eqn:N in E; [|discriminate].
  exists t'. eapply drive_of_traj; eassumption.
Qed.
