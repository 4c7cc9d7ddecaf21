(** What the lane followers and the field of view read of an observation. *)
From Coq Require Import QArith Qcanon ZArith List Bool Arith Lia Permutation.
From Verif Require Import Base Num SeqModel SeqProofs VehState CtrlModel AgentModel PerceptionModel SimulatorModel DictLemmas OrderSpec OrderProofs.
Import ListNotations.
Open Scope Qc_scope.

Lemma rmapM_perm {A B} (f : A -> result B) l l' : Permutation l l' -> forall r, rmapM f l = Ok r -> exists r', rmapM f l' = Ok r' /\ Permutation r r'.
Proof.
  induction 1 as [|q l l' Pm IH|q q' l|l l' l'' Pm IH Pm' IH']; intros r E.
  - exists r. auto.
  - cbn [rmapM] in *. destruct (f q) as [y|]; [|discriminate]. destruct (rmapM f l) as [v|]; [|discriminate]. injection E as <-. destruct (IH _ eq_refl) as (r' & -> & Pr). eexists. split; [reflexivity|]. constructor. exact Pr.
  - cbn [rmapM] in *. destruct (f q) as [y|]; [|destruct (f q'); discriminate]. destruct (f q') as [y'|]; [|discriminate]. destruct (rmapM f l) as [v|]; [|discriminate]. injection E as <-. eexists. split; [reflexivity|]. constructor.
  - destruct (IH _ E) as (v & E1 & P1). destruct (IH' _ E1) as (r' & E2 & P2). exists r'. split; [exact E2|]. eapply Permutation_trans; eassumption.
Qed.

Lemma others_perm {V} p (d d' : list (player * V)) : Permutation d d' -> Permutation (others p d) (others p d').
Proof. unfold others. induction 1; cbn [filter]; repeat (match goal with |- context [if ?b then _ else _] => destruct b end); auto; try constructor; try (eapply Permutation_trans; eassumption). Qed.

Lemma qmin_comm (a b : Qc) : qmin a b = qmin b a.
Proof. unfold qmin. destruct (qltb_spec b a), (qltb_spec a b); try reflexivity; apply Qcle_antisym; qlra. Qed.

Lemma qmin_assoc (a b c : Qc) : qmin (qmin a b) c = qmin a (qmin b c).
Proof. unfold qmin. destruct (qltb_spec b a), (qltb_spec c b); repeat (match goal with |- context [qltb ?x ?y] => destruct (qltb_spec x y) end); try reflexivity; apply Qcle_antisym; qlra. Qed.

Lemma qmin_list_perm d l l' : Permutation l l' -> qmin_list d l = qmin_list d l'.
Proof.
  unfold qmin_list. intro P. revert d. induction P as [|x l l' P IH|x y l|l l' l'' P IH P' IH']; intro d; cbn [fold_left]; [reflexivity|apply IH| |rewrite IH; apply IH'].
  f_equal. rewrite !qmin_assoc, (qmin_comm y x). reflexivity.
Qed.

Lemma existsb_perm {A} (f : A -> bool) l l' : Permutation l l' -> existsb f l = existsb f l'.
Proof. induction 1 as [|x l l' P IH|x y l|l l' l'' P IH P' IH']; cbn; try congruence. rewrite !orb_assoc, (orb_comm (f y)). reflexivity. Qed.

Section Speed.
Context {X F : Type} (K : kin X) (sp : sb_param) (me : player).
Context (vel : forall x, exists v, vx_of K x = Some v).
Definition vel_of (x : X) : Qc := match vx_of K x with Some v => v | None => 0 end.
Definition rel_of (rs : list (player * rel_pose)) (p : player) : rel_pose := match dget rs p with Some r => r | None => mkRel 0 0 0 end.
Definition t_yield (rs : list (player * rel_pose)) (e : player * (X * F)) : bool :=
  negb (Nat.eqb (fst e) me) && (between (py_pi / qz 4) (rel_theta (rel_of rs (fst e))) (py_pi * qz 3 / qz 4) && qltb (minimum_yield_vel sp) (vel_of (fst (snd e))) && nearer (rel_of rs (fst e)) (yield_distance sp)).
Definition t_emergency (myvel : Qc) (rs : list (player * rel_pose)) (e : player * (X * F)) : bool :=
  negb (Nat.eqb (fst e) me) && ((between (qz (-3) * py_pi / qz 4) (rel_theta (rel_of rs (fst e))) (- py_pi / qz 4) && qltb (minimum_yield_vel sp) (vel_of (fst (snd e))) && nearer (rel_of rs (fst e)) (yield_distance sp)) ||
    (between (qz 3 * py_pi / qz 4) (qabs (rel_theta (rel_of rs (fst e)))) (py_pi * qz 5 / qz 4) && (qltb 0 (rel_x (rel_of rs (fst e))) && between (qf (-12) 10) (rel_y (rel_of rs (fst e))) (qf 12 10)) && nearer (rel_of rs (fst e)) (safety_time sp * (myvel + vel_of (fst (snd e)))))).
Definition t_cruise (myvel : Qc) (rs : list (player * rel_pose)) (e : player * (X * F)) : Qc :=
  let rel := rel_of rs (fst e) in let v := vel_of (fst (snd e)) in
  if qltb (qf 1 2) (rel_x rel) && qleb (qabs (rel_y rel)) (qf 12 10) && qltb (qabs (rel_theta rel)) (py_pi / qz 6) && nearer rel (myvel * safety_time sp + qmax (myvel - v) 0)
  then qclip (v - qmax (myvel - v) 0) 0 (kmh2ms (qz 130)) else nominal_speed sp.

Lemma covered_get rs (l : list (player * (X * F))) : incl (akeys l) (akeys rs) -> forall e, In e l -> dgetE rs (fst e) = Ok (rel_of rs (fst e)).
Proof.
  intros H e He. unfold agetE, rel_of. assert (I : In (fst e) (akeys rs)) by (apply H; unfold akeys; apply in_map; exact He). apply In_keys_dget in I as [v ->]. reflexivity.
Qed.

Lemma yield_test rs (l : list (player * (X * F))) : incl (akeys l) (akeys rs) -> anyone_to_yield_to K sp me rs l = Ok (existsb (t_yield rs) l).
Proof.
  induction l as [|[p [x f]] l IH]; intro H; cbn [anyone_to_yield_to existsb]; [reflexivity|].
  assert (H' : incl (akeys l) (akeys rs)) by (intros q Hq; apply H; right; exact Hq). specialize (IH H'). unfold t_yield at 1. cbn [fst snd].
  destruct (Nat.eqb p me); cbn [negb andb orb]; [exact IH|]. pose proof (covered_get rs _ H (p, (x, f)) (or_introl eq_refl)) as G. cbn [fst] in G. rewrite G. unfold vel_of. destruct (vel x) as (v & Hv). rewrite Hv, IH. destruct (_ && nearer _ _)%bool; reflexivity.
Qed.

Lemma emergency_test myvel rs (l : list (player * (X * F))) : incl (akeys l) (akeys rs) -> emergency_needed K sp me myvel rs l = Ok (existsb (t_emergency myvel rs) l).
Proof.
  induction l as [|[p [x f]] l IH]; intro H; cbn [emergency_needed existsb]; [reflexivity|].
  assert (H' : incl (akeys l) (akeys rs)) by (intros q Hq; apply H; right; exact Hq). specialize (IH H'). unfold t_emergency at 1. cbn [fst snd].
  destruct (Nat.eqb p me); cbn [negb andb orb]; [exact IH|]. pose proof (covered_get rs _ H (p, (x, f)) (or_introl eq_refl)) as G. cbn [fst] in G. rewrite G. unfold vel_of. destruct (vel x) as (v & Hv). rewrite Hv, IH. cbv zeta. destruct (_ || _)%bool; reflexivity.
Qed.

Lemma cruise_test myvel rs (l : list (player * (X * F))) : incl (akeys l) (akeys rs) -> cruise_candidates K sp me myvel rs l = Ok (map (t_cruise myvel rs) (others me l)).
Proof.
  induction l as [|[p [x f]] l IH]; intro H; cbn [cruise_candidates]; [reflexivity|].
  assert (H' : incl (akeys l) (akeys rs)) by (intros q Hq; apply H; right; exact Hq). specialize (IH H'). unfold others. cbn [filter fst]. fold (others me l).
  destruct (Nat.eqb p me); cbn [negb]; [exact IH|]. pose proof (covered_get rs _ H (p, (x, f)) (or_introl eq_refl)) as G. cbn [fst] in G. rewrite G. cbn [map]. destruct (vel x) as (v & Hv). rewrite Hv, IH. unfold t_cruise at 2. unfold vel_of. cbn [fst snd]. rewrite Hv. reflexivity.
Qed.

Lemma speed_ref_perm (l l' : list (player * (X * F))) r : Permutation l l' -> NoDup (akeys l) -> get_speed_ref K sp me (Some l) = Ok r -> get_speed_ref K sp me (Some l') = Ok r.
Proof.
  intros P N H. unfold get_speed_ref in *. unfold agetE in *. rewrite (dget_perm l l' P N). destruct (dget l me) as [mine|]; [|discriminate].
  set (g := fun e : player * (X * F) => match relative K (fst mine) (fst (snd e)) with None => Err ZValueError | Some r0 => Ok (fst e, r0) end) in *.
  destruct (rmapM g l) as [rs|] eqn:E; [|discriminate]. destruct (rmapM_perm g l l' P rs E) as (rs' & E' & Pr). rewrite E'.
  assert (Ks : forall m r0, rmapM g m = Ok r0 -> akeys r0 = akeys m).
  { unfold g. induction m as [|[p [x f]] m IH]; intros r0 H0; cbn [rmapM] in H0; [injection H0 as <-; reflexivity|]. destruct (relative K (fst mine) _); [|discriminate]. destruct (rmapM _ m) as [v|]; [|discriminate]. injection H0 as <-. specialize (IH _ eq_refl). unfold akeys in *. cbn [map fst]. rewrite IH. reflexivity. }
  pose proof (Ks _ _ E) as K1. pose proof (Ks _ _ E') as K2.
  assert (Rl : forall p, rel_of rs' p = rel_of rs p) by (intro p; unfold rel_of; rewrite (dget_perm rs rs' Pr); [reflexivity|rewrite K1; exact N]).
  assert (I1 : incl (akeys l) (akeys rs)) by (rewrite K1; intros q Hq; exact Hq). assert (I2 : incl (akeys l') (akeys rs')) by (rewrite K2; intros q Hq; exact Hq).
  rewrite (yield_test rs l I1) in H. rewrite (yield_test rs' l' I2).
  assert (Y : existsb (t_yield rs') l' = existsb (t_yield rs) l).
  { rewrite (existsb_perm _ l l' P). clear - Rl. induction l' as [|e m IH]; [reflexivity|]. cbn [existsb]. rewrite IH. f_equal. unfold t_yield. rewrite Rl. reflexivity. }
  rewrite Y. destruct (vx_of K (fst mine)) as [myvel|]; [|discriminate].
  rewrite (emergency_test myvel rs l I1) in H. rewrite (emergency_test myvel rs' l' I2).
  assert (M : existsb (t_emergency myvel rs') l' = existsb (t_emergency myvel rs) l).
  { rewrite (existsb_perm _ l l' P). clear - Rl. induction l' as [|e m IH]; [reflexivity|]. cbn [existsb]. rewrite IH. f_equal. unfold t_emergency. rewrite Rl. reflexivity. }
  rewrite M. destruct (existsb (t_yield rs) l || existsb (t_emergency myvel rs) l)%bool; [exact H|].
  rewrite (cruise_test myvel rs l I1) in H. rewrite (cruise_test myvel rs' l' I2).
  assert (C : map (t_cruise myvel rs') (others me l') = map (t_cruise myvel rs) (others me l')).
  { apply map_ext. intro e. unfold t_cruise. rewrite Rl. reflexivity. }
  rewrite C. injection H as <-. f_equal. f_equal. apply eq_sym, qmin_list_perm, Permutation_map, others_perm, P.
Qed.
End Speed.
