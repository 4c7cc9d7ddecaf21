(** From the relations to the functions on names and times. *)
From Coq Require Import QArith Qcanon ZArith List Bool Arith Lia.
From Verif Require Import Base Num SeqModel SeqProofs SimulatorModel SimulatorSpec DictLemmas CauseSpec MorphSpec MorphProofs.
Import ListNotations.
Open Scope Qc_scope.

Section R.
Context (W : world) (rho : player -> player) (delta : Qc).

Lemma dicts_eq {V} (a b : list (player * V)) : dicts rho eq a b <-> b = ren rho a.
Proof.
  split.
  - induction 1 as [|[p v] [q w] a b [H1 H2] _ IH]; [reflexivity|]. cbn in *. subst. reflexivity.
  - intros ->. induction a as [|[p v] a IH]; cbn; constructor; [split; reflexivity|exact IH].
Qed.
Lemma dicts_map {A B} (h : A -> B) a b : dicts rho (fun x y => y = h x) a b <-> b = ren rho (map (fun e => (fst e, h (snd e))) a).
Proof.
  split.
  - induction 1 as [|[p v] [q w] a b [H1 H2] _ IH]; [reflexivity|]. cbn in *. subst. reflexivity.
  - intros ->. induction a as [|[p v] a IH]; cbn; constructor; [split; reflexivity|exact IH].
Qed.
Lemma dicts_impl {A B} (R Q : A -> B -> Prop) a b : (forall x y, R x y -> Q x y) -> dicts rho R a b -> dicts rho Q a b.
Proof. intros H. induction 1 as [|x y a b [H1 H2] _ IH]; constructor; [split; auto|exact IH]. Qed.
Lemma f2_map {A B} (R : A -> B -> Prop) (h : A -> B) l k : (forall x y, R x y <-> y = h x) -> Forall2 R l k <-> k = map h l.
Proof.
  intro H. split.
  - induction 1 as [|x y l k E _ IH]; [reflexivity|]. apply H in E. cbn. congruence.
  - intros ->. induction l; cbn; constructor; [apply H; reflexivity|assumption].
Qed.
Lemma f2_eq {A} (l k : list A) : Forall2 eq l k <-> k = l.
Proof. rewrite (f2_map eq (fun x => x)); [rewrite map_id; tauto|]. split; congruence. Qed.
Lemma opt_map {A B} (R : A -> B -> Prop) (h : A -> B) x y : (forall a b, R a b <-> b = h a) -> opt R x y <-> y = option_map h x.
Proof. intro H. destruct x, y; cbn; try rewrite H; split; intro E; try exact I; try congruence; try contradiction; discriminate. Qed.
Lemma opt_eq {A} (x y : option A) : opt eq x y <-> y = x.
Proof. destruct x, y; cbn; split; intro E; try exact I; try congruence; try contradiction; discriminate. Qed.

Context (A : w_A W -> w_A W -> Prop).
Notation r := (same_but W A).

Lemma obs_eq o o' : obs_match r rho delta o o' <-> o' = ren_obs rho delta o.
Proof.
  assert (P : dicts rho (pairs_of (on_X r) (on_F r)) (o_players o) (o_players o') <-> o_players o' = ren rho (o_players o)).
  { rewrite <- dicts_eq. split; apply dicts_impl; intros [x f] [y g]; unfold pairs_of; cbn; intuition congruence. }
  unfold obs_match, times, ren_obs. rewrite P. destruct o' as [ps t]; cbn. split; [intros [-> ->]; reflexivity|]. intro H. injection H as -> ->. auto.
Qed.
Lemma report_eq (x y : report (w_D W)) : report_match r rho delta x y <-> y = ren_report rho delta x.
Proof.
  unfold report_match, times, ren_report. cbn [on_D same_but]. rewrite opt_eq. destruct y as [ps t d]; cbn. split; [intros (-> & -> & ->); reflexivity|]. intro H. injection H as -> -> ->. auto.
Qed.
Lemma seq_eq {X} (a b : seq X) : seqs delta eq a b <-> b = moved_seq delta a.
Proof.
  unfold seqs, moved_seq. rewrite (f2_map (times delta) (fun t => t + delta)) by (intros; unfold times; tauto). rewrite f2_eq. destruct b as [ts vs ty]; cbn.
  split; [intros (-> & -> & ->); reflexivity|]. intro H. injection H as -> -> ->. auto.
Qed.
Lemma log_eq a b : logs_match r delta a b <-> b = moved_log delta a.
Proof.
  unfold logs_match, moved_log. cbn [on_X on_U on_E on_I same_but]. rewrite !seq_eq. destruct b; cbn. split; [intros (-> & -> & -> & ->); reflexivity|]. intro H. injection H as -> -> -> ->. auto.
Qed.
Lemma ctx_eq c d : ctx_match r rho delta c d <-> dicts rho A (c_players c) (c_players d) /\ d = ren_ctx rho delta (c_players d) c.
Proof.
  unfold ctx_match. cbn [on_scen on_G on_M on_A on_S same_but]. rewrite !dicts_eq. rewrite (f2_map _ (ren_report rho delta)) by (intros; apply report_eq).
  rewrite (opt_map _ (fun t => t + delta)) by (intros; unfold times; tauto).
  assert (P : dicts rho (logs_match r delta) (c_log c) (c_log d) <-> c_log d = ren rho (map (fun e => (fst e, moved_log delta (snd e))) (c_log c))).
  { rewrite <- dicts_map. split; apply dicts_impl; intros; apply log_eq; assumption. }
  rewrite P. unfold times, ren_ctx, moved_param. destruct d as [[sc pr ms sd se] mo pl sn lg t tm rp fi], pr as [d1 d2 d3 d4]; cbn. split.
  - intros (-> & -> & -> & -> & -> & -> & -> & -> & -> & H & -> & -> & -> & -> & -> & ->). split; [exact H|reflexivity].
  - intros [H E]. injection E. intros. subst. repeat split; auto.
Qed.
End R.

Lemma bisect_shift d a x : forall fuel lo hi, (hi <= length a)%nat -> bisect_left_loop fuel (map (fun t => t + d) a) (x + d) lo hi = bisect_left_loop fuel a x lo hi.
Proof.
  induction fuel as [|f IH]; intros lo hi Hh; cbn [bisect_left_loop]; destruct (Nat.ltb_spec lo hi) as [Hl|]; try reflexivity.
  assert (Hm : ((lo + hi) / 2 < hi)%nat) by (apply Nat.div_lt_upper_bound; lia).
  rewrite (nth_indep (map (fun t => t + d) a) 0 (0 + d)) by (rewrite map_length; lia). rewrite (map_nth (fun t => t + d)), shift_ltb. destruct (qltb _ x); apply IH; lia.
Qed.
