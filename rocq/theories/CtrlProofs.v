(** Lemmas on the controllers. *)
From Coq Require Import QArith Qcanon ZArith List Bool Arith Lia.
From Verif Require Import Base Num SeqModel DictLemmas SimulatorModel VehState CtrlModel CtrlSpec.
Import ListNotations.
Open Scope Qc_scope.

(** ** Saturation *)
Lemma clip_saturated lim x : fst lim <= snd lim -> saturated lim x (qclip x (fst lim) (snd lim)).
Proof.
  intro H. unfold saturated, within, qclip, qmin, qmax. destruct (qltb_spec x (fst lim)) as [A|A].
  - left. split; [exact A|]. destruct (qltb_spec (snd lim) (fst lim)); [qlra|reflexivity].
  - destruct (qltb_spec (snd lim) x) as [B|B]; [right; left; auto|right; right; auto].
Qed.
Lemma saturated_within lim x y : fst lim <= snd lim -> saturated lim x y -> within lim y.
Proof.
  intros H [[A ->]|[[A ->]|[A ->]]]; [| |exact A]; split; try apply Qcle_refl; exact H.
Qed.
Lemma clip_within lim x : fst lim <= snd lim -> within lim (qclip x (fst lim) (snd lim)).
Proof. intro H. eapply saturated_within; [exact H|apply clip_saturated; exact H]. Qed.
Lemma clip_id lim x : within lim x -> qclip x (fst lim) (snd lim) = x.
Proof.
  intros [A B]. unfold qclip, qmin, qmax. destruct (qltb_spec x (fst lim)); [qlra|].
  destruct (qltb_spec (snd lim) x); [qlra|reflexivity].
Qed.
Lemma clip_mono lim x y : x <= y -> qclip x (fst lim) (snd lim) <= qclip y (fst lim) (snd lim).
Proof.
  intro H. unfold qclip, qmin, qmax.
  destruct (qltb_spec x (fst lim)), (qltb_spec y (fst lim));
  repeat match goal with |- context[qltb ?a ?b] => destruct (qltb_spec a b) end; qlra.
Qed.

Lemma pid_param_new_ok p q : pid_param_new p = Ok q <-> q = p /\ fst (antiwindup p) < snd (antiwindup p) /\
  fst (setpoint p) < snd (setpoint p) /\ fst (outlim p) < snd (outlim p).
Proof.
  unfold pid_param_new. destruct (qltb_spec (fst (antiwindup p)) (snd (antiwindup p))) as [A|A];
  [|split; [discriminate|intros (_ & C & _); qlra]].
  destruct (qltb_spec (fst (setpoint p)) (snd (setpoint p))) as [B|B]; [|split; [discriminate|intros (_ & _ & C & _); qlra]].
  destruct (qltb_spec (fst (outlim p)) (snd (outlim p))) as [D|D]; [|split; [discriminate|intros (_ & _ & _ & C); qlra]].
  split; [intros [= <-]; auto|intros [-> _]; reflexivity].
Qed.

(** ** Histories *)
Lemma after_param p h c outs : after p h c outs -> pid_p c = p.
Proof.
  induction 1 as [|h c outs o c' y H IH E]; [reflexivity|]. destruct o; cbn in E; injection E as <- <-; exact IH.
Qed.

Lemma after_outputs p h c outs : fst (outlim p) <= snd (outlim p) -> after p h c outs -> Forall (within (outlim p)) outs.
Proof.
  intros L H. induction H as [|h c outs o c' y H IH E]; [constructor|].
  pose proof (after_param _ _ _ _ H) as Hp.
  destruct o; cbn in E; injection E as <- <-; try exact IH.
  constructor; [|exact IH]. rewrite Hp. apply clip_within; exact L.
Qed.

Lemma after_integral p h c outs : fst (antiwindup p) <= snd (antiwindup p) -> after p h c outs ->
  (last_at c = None /\ last_i c = 0 /\ outs = []) \/ (last_at c <> None /\ within (antiwindup p) (last_i c)).
Proof.
  intros L H. induction H as [|h c outs o c' y H IH E]; [left; auto|].
  pose proof (after_param _ _ _ _ H) as Hp.
  destruct o; cbn in E; injection E as <- <-; try exact IH.
  right. cbn [last_at last_i]. split; [discriminate|]. rewrite Hp. apply clip_within; exact L.
Qed.

Lemma after_measure p h c outs : after p h c outs -> measurement c = last_measure h 0.
Proof.
  assert (A : forall h d o, last_measure (h ++ [o]) d = match o with Measure m => m | _ => last_measure h d end).
  { intro h0; induction h0 as [|x r IH]; intros d o; cbn; [destruct o; reflexivity|]. destruct x; apply IH. }
  induction 1 as [|h c outs o c' y H IH E]; [reflexivity|]. rewrite A. destruct o; cbn in E; injection E as <- <-; [reflexivity|exact IH|exact IH].
Qed.

Lemma after_refer p h c outs : after p h c outs -> reference c = match last_refer h None with None => 0 | Some r => qclip r (fst (setpoint p)) (snd (setpoint p)) end.
Proof.
  assert (A : forall h d o, last_refer (h ++ [o]) d = match o with Refer m => Some m | _ => last_refer h d end).
  { intro h0; induction h0 as [|x r IH]; intros d o; cbn; [destruct o; reflexivity|]. destruct x; apply IH. }
  induction 1 as [|h c outs o c' y H IH E]; [reflexivity|]. rewrite A. pose proof (after_param _ _ _ _ H) as Hp.
  destruct o; cbn in E; injection E as <- <-; [exact IH|cbn; rewrite Hp; reflexivity|exact IH].
Qed.

(** ** Speed behaviour *)
Lemma qmin_le_l a b : qmin a b <= a.
Proof. unfold qmin. destruct (qltb_spec b a); qlra. Qed.
Lemma qmin_le_r a b : qmin a b <= b.
Proof. unfold qmin. destruct (qltb_spec b a); qlra. Qed.
Lemma qmin_cases a b : qmin a b = a \/ qmin a b = b.
Proof. unfold qmin. destruct (qltb_spec b a); auto. Qed.

Lemma qmin_list_spec l : forall d, qmin_list d l <= d /\ (forall c, In c l -> qmin_list d l <= c) /\ (qmin_list d l = d \/ In (qmin_list d l) l).
Proof.
  induction l as [|a r IH]; intro d; cbn [qmin_list fold_left]; [split; [apply Qcle_refl|split; [intros c []|auto]]|].
  fold (qmin_list (qmin d a) r). destruct (IH (qmin d a)) as (A & B & C).
  pose proof (qmin_le_l d a) as D. pose proof (qmin_le_r d a) as D'.
  split; [qlra|]. split.
  - intros c [<-|Hc]; [qlra|apply B; exact Hc].
  - destruct C as [C|C]; [|right; right; exact C]. rewrite C. destruct (qmin_cases d a) as [E|E]; rewrite E; [left; reflexivity|right; left; reflexivity].
Qed.

Lemma nearer_iff r d : nearer r d = true <-> near r d.
Proof. unfold nearer, near. rewrite andb_true_iff, !qltb_lt. tauto. Qed.
Lemma between_iff a x b : between a x b = true <-> a <= x /\ x <= b.
Proof. unfold between. rewrite andb_true_iff, !qleb_le. tauto. Qed.

Lemma qabs_le x b : qabs x <= b <-> - b <= x /\ x <= b.
Proof. unfold qabs. destruct (qltb_spec x 0); (split; [intro; split; qlra|intros [? ?]; qlra]). Qed.
Lemma qabs_lt x b : qabs x < b <-> - b < x /\ x < b.
Proof. unfold qabs. destruct (qltb_spec x 0); (split; [intro; split; qlra|intros [? ?]; qlra]). Qed.

Lemma kmh130 : kmh2ms (qz 130) = qf 325 9.
Proof. apply Qc_is_canon. reflexivity. Qed.

Section SB.
Context {X F : Type} (K : kin X) (sp : sb_param) (me : player).
Notation agents := (list (player * (X * F))).

(** The relative poses computed for the whole dict. *)
Definition rels_ok (mine : X) (l : agents) (rs : list (player * rel_pose)) : Prop :=
  forall p x f, In (p, (x, f)) l -> exists r, relative K mine x = Some r /\ dget rs p = Some r.

Lemma rels_spec mine : forall (l : agents) rs, NoDup (map fst l) ->
  rmapM (fun e => match relative K mine (fst (snd e)) with None => Err ZValueError | Some r => Ok (fst e, r) end) l = Ok rs ->
  rels_ok mine l rs.
Proof.
  intros l rs N H. assert (G : map fst rs = map fst l /\ (forall p x f, In (p, (x, f)) l -> exists r, relative K mine x = Some r /\ dget rs p = Some r)).
  { revert rs N H. induction l as [|[p [x f]] l IH]; intros rs N H; cbn [rmapM fst snd] in H.
    - injection H as <-. split; [reflexivity|intros ? ? ? []].
    - destruct (relative K mine x) as [r|] eqn:Er; [|discriminate].
      destruct (rmapM _ l) as [rs1|] eqn:E1; [|discriminate]. injection H as <-. cbn [map fst] in N.
      inversion N as [|? ? N1 N2]; subst. destruct (IH rs1 N2 eq_refl) as [G1 G2].
      split; [cbn; congruence|]. intros p' x' f' [[= <- <- <-]|Hin].
      + exists r. split; [exact Er|]. rewrite dget_cons, Nat.eqb_refl. reflexivity.
      + destruct (G2 _ _ _ Hin) as (r' & A & B). exists r'. split; [exact A|]. rewrite dget_cons.
        destruct (Nat.eqb_spec p p') as [->|]; [|exact B]. exfalso. apply N1. apply (in_map fst) in Hin. exact Hin. }
  exact (proj2 G).
Qed.

Lemma rels_cons mine e l rs : rels_ok mine (e :: l) rs -> rels_ok mine l rs.
Proof. intros H p x f Hin. apply (H p x f). right; exact Hin. Qed.

Lemma other_cons mine p x f (l : agents) r v : other_agent K me ((p, (x, f)) :: l) mine r v <->
  (p <> me /\ relative K mine x = Some r /\ vx_of K x = Some v) \/ other_agent K me l mine r v.
Proof.
  unfold other_agent. split.
  - intros (p' & x' & f' & [[= <- <- <-]|Hin] & A); [left; exact A|right; exists p', x', f'; auto].
  - intros [A|(p' & x' & f' & Hin & A)]; [exists p, x, f; split; [left; reflexivity|exact A]|exists p', x', f'; split; [right; exact Hin|exact A]].
Qed.

Lemma yield_spec mine rs : forall (l : agents) b, rels_ok mine l rs -> anyone_to_yield_to K sp me rs l = Ok b ->
  (b = true <-> exists r v, other_agent K me l mine r v /\ must_yield sp r v).
Proof.
  induction l as [|[p [x f]] l IH]; intros b R H; cbn [anyone_to_yield_to] in H.
  - injection H as <-. split; [discriminate|]. intros (r & v & (p & x & f & [] & _) & _).
  - pose proof (rels_cons _ _ _ _ R) as R'. destruct (Nat.eqb_spec p me) as [->|Np].
    + rewrite (IH b R' H). split; intros (r & v & A & B); exists r, v; (split; [|exact B]).
      * apply other_cons. right; exact A.
      * apply other_cons in A as [[C _]|A]; [exfalso; apply C; reflexivity|exact A].
    + destruct (R p x f (or_introl eq_refl)) as (r & Hr & Dr). unfold agetE in H. rewrite Dr in H.
      destruct (vx_of K x) as [v|] eqn:Ev; [|discriminate].
      destruct (between _ _ _ && _ && nearer r _) eqn:E.
      * injection H as <-. split; [intros _|reflexivity]. exists r, v. split; [apply other_cons; left; auto|].
        apply andb_true_iff in E as [E E3]. apply andb_true_iff in E as [E1 E2].
        apply between_iff in E1 as [E1 E1']. apply qltb_lt in E2. apply nearer_iff in E3. unfold must_yield. auto.
      * rewrite (IH b R' H). split; intros (r' & v' & A & B).
        -- exists r', v'. split; [apply other_cons; right; exact A|exact B].
        -- apply other_cons in A as [(_ & A1 & A2)|A]; [|exists r', v'; auto]. exfalso.
           assert (r' = r) as -> by congruence. assert (v' = v) as -> by congruence.
           destruct B as (B1 & B2 & B3 & B4).
           assert (T : between (py_pi / qz 4) (rel_theta r) (py_pi * qz 3 / qz 4) && qltb (minimum_yield_vel sp) v && nearer r (yield_distance sp) = true).
           { apply andb_true_iff. split; [apply andb_true_iff; split|]; [apply between_iff; auto|apply qltb_lt; exact B3|apply nearer_iff; exact B4]. }
           congruence.
Qed.

Lemma emergency_spec mine myvel rs : forall (l : agents) b, rels_ok mine l rs -> emergency_needed K sp me myvel rs l = Ok b ->
  (b = true <-> exists r v, other_agent K me l mine r v /\ is_emergency sp myvel r v).
Proof.
  induction l as [|[p [x f]] l IH]; intros b R H; cbn [emergency_needed] in H.
  - injection H as <-. split; [discriminate|]. intros (r & v & (p & x & f & [] & _) & _).
  - pose proof (rels_cons _ _ _ _ R) as R'. destruct (Nat.eqb_spec p me) as [->|Np].
    + rewrite (IH b R' H). split; intros (r & v & A & B); exists r, v; (split; [|exact B]).
      * apply other_cons. right; exact A.
      * apply other_cons in A as [[C _]|A]; [exfalso; apply C; reflexivity|exact A].
    + destruct (R p x f (or_introl eq_refl)) as (r & Hr & Dr). unfold agetE in H. rewrite Dr in H.
      destruct (vx_of K x) as [v|] eqn:Ev; [|discriminate]. cbv zeta in H.
      match type of H with (if ?c then _ else _) = _ => assert (T : c = true <-> is_emergency sp myvel r v);
        [|destruct c eqn:E] end.
      { unfold is_emergency. rewrite orb_true_iff, !andb_true_iff, !between_iff, !qltb_lt, !nearer_iff. tauto. }
      * injection H as <-. split; [intros _|reflexivity]. exists r, v. split; [apply other_cons; left; auto|apply T; reflexivity].
      * rewrite (IH b R' H). split; intros (r' & v' & A & B).
        -- exists r', v'. split; [apply other_cons; right; exact A|exact B].
        -- apply other_cons in A as [(_ & A1 & A2)|A]; [|exists r', v'; auto]. exfalso.
           assert (r' = r) as -> by congruence. assert (v' = v) as -> by congruence. apply T in B. discriminate.
Qed.

Lemma cruise_spec mine myvel rs : forall (l : agents) cs, rels_ok mine l rs -> cruise_candidates K sp me myvel rs l = Ok cs ->
  (forall r v, other_agent K me l mine r v -> too_close_ahead sp myvel r v -> In (follow_speed myvel v) cs) /\
  (forall c, In c cs -> c = nominal_speed sp \/ exists r v, other_agent K me l mine r v /\ too_close_ahead sp myvel r v /\ c = follow_speed myvel v).
Proof.
  induction l as [|[p [x f]] l IH]; intros cs R H; cbn [cruise_candidates] in H.
  - injection H as <-. split; [intros r v (p & x & f & [] & _)|intros c []].
  - pose proof (rels_cons _ _ _ _ R) as R'. destruct (Nat.eqb_spec p me) as [->|Np].
    + destruct (IH cs R' H) as [A B]. split.
      * intros r v O T. apply other_cons in O as [[C _]|O]; [exfalso; apply C; reflexivity|]. exact (A r v O T).
      * intros c Hc. destruct (B c Hc) as [E|(r & v & O & T & E)]; [left; exact E|right; exists r, v]. split; [apply other_cons; right; exact O|auto].
    + destruct (R p x f (or_introl eq_refl)) as (r & Hr & Dr). unfold agetE in H. rewrite Dr in H.
      destruct (vx_of K x) as [v|] eqn:Ev; [|discriminate]. cbv zeta in H.
      destruct (cruise_candidates K sp me myvel rs l) as [cs'|] eqn:Ec; [|discriminate]. injection H as <-.
      destruct (IH cs' R' eq_refl) as [A B].
      match goal with |- context [ (if ?c then _ else _) :: cs' ] => assert (T : c = true <-> too_close_ahead sp myvel r v);
        [|destruct c eqn:E] end.
      { unfold too_close_ahead. rewrite !andb_true_iff, !qltb_lt, qleb_le, nearer_iff, qabs_le, qabs_lt. tauto. }
      * replace (qclip (v - qmax (myvel - v) 0) 0 (kmh2ms (qz 130))) with (follow_speed myvel v) by (unfold follow_speed; rewrite kmh130; reflexivity). split.
        -- intros r' v' O T'. apply other_cons in O as [(_ & A1 & A2)|O]; [|right; exact (A r' v' O T')].
           assert (v' = v) as -> by congruence. left; reflexivity.
        -- intros c [<-|Hc]; [right; exists r, v; split; [apply other_cons; left; auto|split; [apply T; reflexivity|reflexivity]]|].
           destruct (B c Hc) as [E'|(r' & v' & O & T' & E')]; [left; exact E'|right; exists r', v'; split; [apply other_cons; right; exact O|auto]].
      * split.
        -- intros r' v' O T'. apply other_cons in O as [(_ & A1 & A2)|O]; [|right; exact (A r' v' O T')]. exfalso.
           assert (r' = r) as -> by congruence. assert (v' = v) as -> by congruence. apply T in T'. discriminate.
        -- intros c [<-|Hc]; [left; reflexivity|].
           destruct (B c Hc) as [E'|(r' & v' & O & T' & E')]; [left; exact E'|right; exists r', v'; split; [apply other_cons; right; exact O|auto]].
Qed.

Lemma follow_range myvel v : 0 <= follow_speed myvel v /\ (follow_speed myvel v <= v \/ follow_speed myvel v = 0).
Proof.
  assert (P : 0 < qf 325 9) by reflexivity. unfold follow_speed. generalize dependent (qf 325 9). intros k P.
  assert (A : v - qmax (myvel - v) 0 <= v) by (unfold qmax; destruct (qltb_spec (myvel - v) 0); qlra).
  generalize dependent (v - qmax (myvel - v) 0). intros w A. unfold qmin, qmax.
  destruct (qltb_spec w 0) as [B|B].
  - destruct (qltb_spec k 0) as [C|C]; [exfalso; qlra|]. split; [apply Qcle_refl|right; reflexivity].
  - destruct (qltb_spec k w) as [C|C]; (split; [qlra|left; qlra]).
Qed.

Lemma speed_ref_spec (l : agents) ref em : NoDup (map fst l) -> get_speed_ref K sp me (Some l) = Ok (ref, em) ->
  exists mine fm myvel, dget l me = Some (mine, fm) /\ vx_of K mine = Some myvel /\
    (em = true <-> exists r v, other_agent K me l mine r v /\ is_emergency sp myvel r v) /\
    ((ref = 0 /\ (em = true \/ exists r v, other_agent K me l mine r v /\ must_yield sp r v)) \/
     (em = false /\ ~ (exists r v, other_agent K me l mine r v /\ must_yield sp r v) /\
      ref <= nominal_speed sp /\
      (forall r v, other_agent K me l mine r v -> too_close_ahead sp myvel r v -> ref <= follow_speed myvel v) /\
      (ref = nominal_speed sp \/ exists r v, other_agent K me l mine r v /\ too_close_ahead sp myvel r v /\ ref = follow_speed myvel v))).
Proof.
  intros N H. unfold get_speed_ref in H. destruct (dgetE l me) as [[mine fm]|] eqn:Em; [|discriminate]. apply agetE_Ok in Em.
  cbn [fst] in H. destruct (rmapM _ l) as [rs|] eqn:Er; [|discriminate].
  pose proof (rels_spec mine l rs N Er) as R.
  destruct (anyone_to_yield_to K sp me rs l) as [yields|] eqn:Ey; [|discriminate].
  destruct (vx_of K mine) as [myvel|] eqn:Ev; [|discriminate].
  destruct (emergency_needed K sp me myvel rs l) as [emg|] eqn:Ee; [|discriminate].
  pose proof (yield_spec mine rs l yields R Ey) as Y. pose proof (emergency_spec mine myvel rs l emg R Ee) as G.
  exists mine, fm, myvel. split; [exact Em|]. split; [exact Ev|].
  destruct (yields || emg) eqn:Eo.
  - injection H as <- <-. split; [exact G|]. left. split; [reflexivity|].
    apply orb_true_iff in Eo as [Eo|Eo]; [right; apply Y; exact Eo|left; exact Eo].
  - apply orb_false_iff in Eo as [-> ->].
    destruct (cruise_candidates K sp me myvel rs l) as [cs|] eqn:Ec; [|discriminate]. injection H as <- <-.
    split; [exact G|]. right. split; [reflexivity|]. split; [intro C; apply Y in C; discriminate|].
    destruct (cruise_spec mine myvel rs l cs R Ec) as [A B]. destruct (qmin_list_spec cs (nominal_speed sp)) as (M1 & M2 & M3).
    split; [exact M1|]. split; [intros r v O T; apply M2; exact (A r v O T)|].
    destruct M3 as [M3|M3]; [left; exact M3|]. destruct (B _ M3) as [E|E]; [left; exact E|right; exact E].
Qed.
End SB.
