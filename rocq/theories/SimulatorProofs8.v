(** Leaving, observations, reports; independence of leftovers. *)
From Coq Require Import QArith Qcanon ZArith List Bool Arith Lia Sorted.
From Verif Require Import Base Num SeqModel SeqSpec SeqProofs SeqProofs2 DictLemmas SimulatorModel SimulatorSpec
  SimulatorProofs SimulatorProofs2 SimulatorProofs3 SimulatorProofs4 SimulatorProofs5 SimulatorProofs6 SimulatorProofs7.
Import ListNotations.
Open Scope Qc_scope.

Lemma In_keys_ddel_sub {V} (d : list (player * V)) k k' : In k' (akeys (ddel d k)) -> In k' (akeys d).
Proof.
  unfold akeys. induction d as [|[a b] r IH]; [intros []|]. change (ddel ((a, b) :: r) k) with (if Nat.eqb a k then r else (a, b) :: ddel r k). destruct (Nat.eqb a k); cbn [map fst In]; [intro H; right; exact H|]. intros [H|H]; auto.
Qed.

Section Gone.
Context {W : world}.
Implicit Types (s : st W) (p q : player) (c : ctx W).

(** ** C23 *)
Lemma gone_for_good c s0 k s p : started c s0 -> 0 < dt (g_param (c_cfg c)) -> after s0 k s -> ~ active s p ->
  forall n s', after s n s' ->
  ~ active s' p /\ asks s' p = asks s p /\ moves s' p = moves s p /\ logger_of s' p = logger_of s p /\ model_of s' p = model_of s p /\
  (exists np, pairs_of (ev s') = pairs_of (ev s) ++ np /\ forall a b t, In (a, b, t) np -> a <> p /\ b <> p) /\
  (exists ne, envs_of (ev s') = envs_of (ev s) ++ ne /\ forall a i t, In (a, i, t) ne -> a <> p) /\
  (forall q, exists na, asks s' q = asks s q ++ na /\ forall a, In a na -> dget (o_players (ask_seen a)) p = None).
Proof.
  intros S D A Hn n s' B. induction B as [|n s1 s2 B IH Ht Hs].
  - repeat (split; [first [assumption|reflexivity]|]). split; [exists []; rewrite app_nil_r; split; [reflexivity|intros ? ? ? []]|].
    split; [exists []; rewrite app_nil_r; split; [reflexivity|intros ? ? ? []]|].
    intro q. exists []. rewrite app_nil_r. split; [reflexivity|intros ? []].
  - destruct IH as (I1 & I2 & I3 & I4 & I5 & (np & I6 & I6') & (ne & I7 & I7') & I8).
    pose proof (after_trans _ _ _ A _ _ B) as A1.
    pose proof (after_step _ _ _ _ _ S D A1 Hs) as R.
    destruct (sr_inact _ _ R p I1) as (H1 & H2 & H3 & H4 & H5 & H6).
    split; [exact H1|]. split; [unfold asks in *; congruence|]. split; [unfold moves in *; congruence|]. split; [congruence|]. split; [congruence|].
    pose proof (sr_coll _ _ R) as C.
    assert (G : (exists np', pairs_of (ev s2) = pairs_of (ev s1) ++ np' /\ forall a b t, In (a, b, t) np' -> a <> p /\ b <> p) /\
                (exists ne', envs_of (ev s2) = envs_of (ev s1) ++ ne' /\ forall a i t, In (a, i, t) ne' -> a <> p)).
    { destruct (c_term (cx s2)).
      - destruct C as (_ & _ & C1 & C2 & _). split; [exists []|exists []]; rewrite app_nil_r; (split; [assumption|intros ? ? ? []]).
      - destruct C as (np' & ne' & new & _ & _ & C1 & C2 & C3 & _ & C4 & _). split.
        + exists (map (fun pq => (fst pq, snd pq, time s2)) np'). split; [exact C1|]. intros a b t Hi.
          apply in_map_iff in Hi as ([a' b'] & [= <- <- <-] & Hi). apply C3 in Hi. apply combinations2_In in Hi as (i & j & _ & Hi & Hj).
          apply nth_error_In in Hi. apply nth_error_In in Hj. split; intros ->; apply H1; assumption.
        + exists ne'. split; [exact C2|]. intros a i t Hi. apply C4 in Hi as [Hi _]. intros ->. contradiction. }
    destruct G as [(np' & G1 & G1') (ne' & G2 & G2')].
    split; [exists (np ++ np'); rewrite G1, I6, app_assoc; split; [reflexivity|intros a b t Hi; apply in_app_iff in Hi as [Hi|Hi]; eauto]|].
    split; [exists (ne ++ ne'); rewrite G2, I7, app_assoc; split; [reflexivity|intros a b t Hi; apply in_app_iff in Hi as [Hi|Hi]; eauto]|].
    intro q. destruct (I8 q) as (na & E1 & E2). destruct (active_dec s1 q) as [Hq|Hq].
    + destruct (sr_act _ _ R q Hq) as [m m1 m2 u l l' fin P1 P2 P3 P4 P5 P6 P7 P8 P9 P10 P11 P12 P13 P14].
      destruct (need_commands s1).
      * destruct P14 as (f & f' & o & a & a' & a'' & x & full & Q1 & Q2 & Q3 & Q4 & Q5 & Q6 & Q7 & Q8 & Q9 & Q10).
        exists (na ++ [(time s1, full, o, u)]). unfold asks in *. rewrite Q10, E1, app_assoc. split; [reflexivity|].
        intros b Hb. apply in_app_iff in Hb as [Hb|[<-|[]]]; [apply E2; exact Hb|]. cbn.
        destruct Q1 as (_ & _ & Q1). rewrite Q1. unfold activeb. rewrite (proj2 (dmem_false _ _) I1). reflexivity.
      * destruct P14 as (_ & _ & _ & _ & Q5). exists na. unfold asks in *. rewrite Q5. auto.
    + destruct (sr_inact _ _ R q Hq) as (_ & _ & _ & _ & K5 & _). exists na. unfold asks in *. rewrite K5. auto.
Qed.

Lemma no_mission_stays c s0 : started c s0 -> 0 < dt (g_param (c_cfg c)) -> forall k s, after s0 k s -> forall p,
  In p (akeys (c_models c)) -> dget (g_missions (c_cfg c)) p = None -> active s p.
Proof.
  intros S D. apply (after_rect c s0 (fun k s => forall p, In p (akeys (c_models c)) -> dget (g_missions (c_cfg c)) p = None -> active s p) S D).
  - intros p Hp _. apply (started_start _ _ S); exact Hp.
  - intros k s s' A Ht A' F F' R IH p Hp Hm. specialize (IH p Hp Hm).
    destruct (sr_act _ _ R p IH) as [m m1 m2 u l l' fin P1 P2 P3 P4 P5 P6 P7 P8 P9 P10 P11 P12 P13 P14].
    destruct (active_dec s' p) as [?|Hn]; [assumption|]. apply P8 in Hn. apply P9 in Hn as (g & G & _).
    rewrite (fa_cfg _ _ _ _ F) in G. congruence.
Qed.

(** ** C27 / C28: reports *)
Lemma reports_expected c s0 : started c s0 -> 0 < dt (g_param (c_cfg c)) -> forall k s, after s0 k s ->
  c_reports (cx s) = c_reports c ++ expected_reports (ev s).
Proof.
  intros S D. apply (after_rect c s0 (fun k s => c_reports (cx s) = c_reports c ++ expected_reports (ev s)) S D).
  - destruct (started_start _ _ S) as (_ & E & _ & _ & R & _). rewrite R, E. symmetry; apply app_nil_r.
  - intros k s s' A Ht A' F F' R IH. pose proof (sr_coll _ _ R) as C. destruct (c_term (cx s')).
    + destruct C as (C1 & _ & _ & _ & C2). congruence.
    + destruct C as (np & ne & new & C1 & C2 & _). rewrite C1, C2, IH, app_assoc. reflexivity.
Qed.

Definition earliest (f : option Qc) (l : list (report (w_D W))) : Prop :=
  match l with
  | [] => f = None
  | r :: _ => f = Some (r_time r) /\ forall r', In r' l -> r_time r <= r_time r'
  end.

Lemma reports_ordered c s0 : started c s0 -> 0 < dt (g_param (c_cfg c)) -> reports_stamped W ->
  c_reports c = [] -> c_first c = None -> forall k s, after s0 k s ->
  StronglySorted (fun r r' : report (w_D W) => r_time r <= r_time r') (c_reports (cx s)) /\
  (forall r, In r (c_reports (cx s)) -> c_time c < r_time r /\ r_time r <= time s) /\ earliest (c_first (cx s)) (c_reports (cx s)).
Proof.
  intros S D K E1 E2. apply (after_rect c s0 (fun k s =>
    StronglySorted (fun r r' : report (w_D W) => r_time r <= r_time r') (c_reports (cx s)) /\
    (forall r, In r (c_reports (cx s)) -> c_time c < r_time r /\ r_time r <= time s) /\ earliest (c_first (cx s)) (c_reports (cx s))) S D).
  - destruct (started_start _ _ S) as (_ & E & _ & _ & R & R'). rewrite R, R', E1, E2. split; [constructor|]. split; [intros r []|reflexivity].
  - intros k s s' A Ht A' F F' R (I1 & I2 & I3). pose proof (sr_coll _ _ R) as C.
    assert (T : time s <= time s') by (rewrite (sr_time _ _ R), (fa_param _ _ _ _ F); qlra).
    assert (T0 : c_time c < time s').
    { rewrite (fa_time _ _ _ _ F'). pose proof (proj2 (grid_lt (c_time c) (dt (g_param (c_cfg c))) 0 (Datatypes.S k) D)) as G.
      rewrite qn_0 in G. replace (c_time c + 0 * dt (g_param (c_cfg c))) with (c_time c) in G by ring. apply G. lia. }
    assert (Le : forall r, In r (c_reports (cx s)) -> c_time c < r_time r /\ r_time r <= time s').
    { intros r Hr. destruct (I2 r Hr) as [? ?]. split; [assumption|]. eapply Qcle_trans; eassumption. }
    destruct (c_term (cx s')).
    + destruct C as (C1 & C2 & _). rewrite C1, C2. auto.
    + destruct C as (np & ne & new & C1 & _ & _ & _ & _ & _ & _ & C2). destruct (C2 K) as [C3 C4]. rewrite Forall_forall in C3. rewrite C1.
      split; [|split].
      * clear C1 C2 C4 Le I3. induction (c_reports (cx s)) as [|r l IH]; cbn.
        -- clear I1 I2. induction new as [|r l IH]; constructor.
           ++ apply IH. intros x Hx. apply C3. right; exact Hx.
           ++ apply Forall_forall. intros x Hx. rewrite (C3 r), (C3 x); [apply Qcle_refl|right; exact Hx|left; reflexivity].
        -- inversion I1; subst. constructor; [apply IH; [assumption|intros x Hx; apply I2; right; exact Hx]|].
           apply Forall_forall. intros x Hx. apply in_app_iff in Hx as [Hx|Hx].
           ++ rewrite Forall_forall in H2. apply H2; exact Hx.
           ++ rewrite (C3 x Hx). eapply Qcle_trans; [|exact T]. apply I2. left; reflexivity.
      * intros r Hr. apply in_app_iff in Hr as [Hr|Hr]; [apply Le; exact Hr|]. rewrite (C3 r Hr). split; [exact T0|apply Qcle_refl].
      * rewrite C4. destruct (c_reports (cx s)) as [|r l] eqn:Er; cbn [app].
        -- cbn in I3. rewrite I3. destruct new as [|r l]; [reflexivity|]. cbn. rewrite (C3 r) by (left; reflexivity). split; [reflexivity|].
           intros x Hx. rewrite (C3 x Hx). apply Qcle_refl.
        -- cbn in I3. destruct I3 as [I3 I3']. rewrite I3. destruct (I2 r) as [_ B]; [left; reflexivity|].
           assert (E : earlier (time s') (Some (r_time r)) = Some (r_time r)).
           { cbn. destruct (qltb_spec (time s') (r_time r)); [qlra|reflexivity]. }
           cbn [earliest]. split; [destruct new; [reflexivity|exact E]|].
           intros x Hx. change (In x ((r :: l) ++ new)) in Hx. apply in_app_iff in Hx as [Hx|Hx]; [apply I3'; exact Hx|]. rewrite (C3 x Hx). qlra.
Qed.

(** ** C29: leftovers of other simulators *)
Definition agree_on {V} (K : player -> Prop) (d d' : list (player * V)) : Prop := forall p, K p -> dget d p = dget d' p.

Lemma agree_dset {V} K (d d' : list (player * V)) p v : agree_on K d d' -> agree_on K (dset d p v) (dset d' p v).
Proof. intros H q Hq. rewrite !dget_dset. destruct (Nat.eqb p q); [reflexivity|apply H; exact Hq]. Qed.
Lemma agree_dset' {V} (K : player -> Prop) (d d' : list (player * V)) p v : agree_on K d d' -> agree_on (fun q => K q \/ q = p) (dset d p v) (dset d' p v).
Proof. intros H q Hq. rewrite !dget_dset. destruct (Nat.eqb_spec p q); [reflexivity|]. apply H. destruct Hq; congruence. Qed.

(** Two simulator states that may differ only in data of players outside [K],
    in commands outside [C] and, if [ob] is false, in the stored observation. *)
Record like (K C : player -> Prop) (ob : Prop) s s' : Prop := mkLike {
  lk_cx : cx s = cx s'; lk_ev : ev s = ev s'; lk_last : s_last (sm s) = s_last (sm s');
  lk_logs : agree_on K (s_logs (sm s)) (s_logs (sm s'));
  lk_cmds : agree_on C (s_cmds (sm s)) (s_cmds (sm s'));
  lk_obs : ob -> s_obs (sm s) = s_obs (sm s') }.

Definition rlike (K C : player -> Prop) (ob : Prop) (r r' : result (st W)) : Prop :=
  match r, r' with Ok s, Ok s' => like K C ob s s' | Err e, Err e' => e = e' | _, _ => False end.

Lemma like_mono K (C C' : player -> Prop) (ob ob' : Prop) s s' : like K C ob s s' -> (forall p, C' p -> C p) -> (ob' -> ob) -> like K C' ob' s s'.
Proof. intros [] H1 H2. constructor; auto. intros p Hp. apply lk_cmds0, H1, Hp. Qed.

Lemma like_need K C ob s s' : like K C ob s s' -> need_commands s = need_commands s'.
Proof. intros []. unfold need_commands, time, param. rewrite lk_last0, lk_cx0. reflexivity. Qed.

Lemma with_logger_like K C ob s s' p f : like K C ob s s' -> K p -> rlike K C ob (with_logger s p f) (with_logger s' p f).
Proof.
  intros [E1 E2 E3 E4 E5 E6] Hp. unfold with_logger, agetE. rewrite <- (E4 p Hp).
  destruct (dget (s_logs (sm s)) p) as [l|]; [|reflexivity]. destruct (f l) as [l'|]; [|reflexivity]. cbn.
  constructor; cbn; auto. apply agree_dset; exact E4.
Qed.

Lemma ask_like K C s s' p t : like K C True s s' -> K p -> rlike K (fun q => C q \/ q = p) True (ask s p t) (ask s' p t).
Proof.
  intros [E1 E2 E3 E4 E5 E6] Hp. unfold ask. rewrite <- E1, <- (E6 Logic.I).
  destruct (get_sensor (cx s) p) as [f|]; [|reflexivity].
  destruct (sense W f _ _ p) as [[f' o]|]; [|reflexivity].
  destruct (dgetE (c_players (cx s)) p) as [a|]; [|reflexivity].
  destruct (agent_cmds W a o) as [[a' u]|]; [|reflexivity]. cbv zeta. rewrite <- E2.
  match goal with |- context [with_logger ?x p (log_command t u)] => set (s1 := x) end.
  match goal with |- rlike _ _ _ _ match with_logger ?x p (log_command t u) with _ => _ end => set (s1' := x) end.
  assert (L1 : like K (fun q => C q \/ q = p) True s1 s1').
  { constructor; cbn; auto. apply agree_dset'; exact E5. }
  pose proof (with_logger_like _ _ _ _ _ p (log_command t u) L1 Hp) as L2.
  destruct (with_logger s1 p (log_command t u)) as [s2|], (with_logger s1' p (log_command t u)) as [s2'|]; cbn in L2; try contradiction; [|exact L2].
  pose proof (with_logger_like _ _ _ _ _ p (log_info t (cpu_time W p t)) L2 Hp) as L3.
  destruct (with_logger s2 p _) as [s3|], (with_logger s2' p _) as [s3'|]; cbn in L3; try contradiction; [|exact L3].
  destruct (agent_extra W a') as [[a'' x]|]; [|reflexivity].
  assert (L4 : like K (fun q => C q \/ q = p) True (upd_cx s3 (set_players (cx s3) (dset (c_players (cx s3)) p a'')))
                 (upd_cx s3' (set_players (cx s3') (dset (c_players (cx s3')) p a'')))).
  { destruct L3. constructor; cbn; auto. rewrite lk_cx0. reflexivity. }
  destruct x; [|exact L4]. apply with_logger_like; [exact L4|exact Hp].
Qed.

Lemma update_player_like K C s s' p t : like K C (need_commands s = true) s s' -> K p -> (need_commands s = false -> C p) ->
  rlike K (fun q => C q \/ q = p) (need_commands s = true) (update_player t s p) (update_player t s' p).
Proof.
  intros L Hp Hc. unfold update_player. rewrite <- (lk_cx _ _ _ _ _ L).
  destruct (dgetE (c_models (cx s)) p) as [m0|]; [|reflexivity].
  pose proof (with_logger_like _ _ _ _ _ p (log_state t (get_state W m0)) L Hp) as L1.
  destruct (with_logger s p (log_state t (get_state W m0))) as [s1|] eqn:Ew, (with_logger s' p (log_state t (get_state W m0))) as [s1'|]; cbn in L1; try contradiction; [|exact L1].
  rewrite <- (like_need _ _ _ _ _ L1).
  assert (Nd : need_commands s1 = need_commands s).
  { apply with_logger_ok in Ew as (l & l' & _ & _ & ->). reflexivity. }
  rewrite Nd.
  assert (L2 : rlike K (fun q => C q \/ q = p) (need_commands s = true) (if need_commands s then ask s1 p t else Ok s1) (if need_commands s then ask s1' p t else Ok s1')).
  { destruct (need_commands s).
    - assert (L1' : like K C True s1 s1') by (eapply like_mono; [exact L1|auto|auto]).
      pose proof (ask_like K C s1 s1' p t L1' Hp) as La. destruct (ask s1 p t), (ask s1' p t); cbn in *; auto. eapply like_mono; [exact La|auto|auto].
    - cbn. eapply like_mono; [exact L1| |auto]. intros q [?| ->]; [assumption|]. apply Hc; reflexivity. }
  destruct (if need_commands s then ask s1 p t else Ok s1) as [s2|], (if need_commands s then ask s1' p t else Ok s1') as [s2'|]; cbn in L2; try contradiction; [|exact L2].
  assert (Ec : dget (s_cmds (sm s2)) p = dget (s_cmds (sm s2')) p) by (apply (lk_cmds _ _ _ _ _ L2); auto).
  unfold agetE. rewrite <- Ec. destruct (dget (s_cmds (sm s2)) p) as [u|]; [|reflexivity].
  unfold param. rewrite <- (lk_cx _ _ _ _ _ L2).
  destruct (dget (c_models (cx s2)) p) as [m|]; [|reflexivity]. destruct (model_step W m u _) as [m'|]; [|reflexivity].
  destruct L2. cbn. constructor; cbn; auto. rewrite lk_ev0. reflexivity.
Qed.

Lemma update_like K C s s' : like K C (need_commands s = true) s s' -> (forall p, active s p -> K p) ->
  NoDup (akeys (c_players (cx s))) ->
  (need_commands s = false -> forall p, active s p -> C p) ->
  rlike K (fun q => C q \/ active s q) (need_commands s = true) (update s) (update s').
Proof.
  intros L HK N HC. unfold update. cbv zeta.
  assert (St : forall l pre x x', like K (fun q => C q \/ In q pre) (need_commands s = true) x x' -> need_commands x = need_commands s ->
     (forall p, In p l -> K p) -> (need_commands s = false -> forall p, In p l -> C p) ->
     rlike K (fun q => C q \/ In q (pre ++ l)) (need_commands s = true) (rfold (update_player (time s)) x l) (rfold (update_player (time s)) x' l) /\
     (forall y, rfold (update_player (time s)) x l = Ok y -> need_commands y = need_commands s)).
  { induction l as [|p r IH]; intros pre x x' Lx Nx Hk Hc; cbn [rfold].
    - split; [rewrite app_nil_r; exact Lx|]. intros y [= <-]. exact Nx.
    - rewrite <- Nx in Lx. pose proof (update_player_like K _ x x' p (time s) Lx (Hk p (or_introl eq_refl))) as Lp.
      specialize (Lp (fun E => or_introl (Hc (eq_trans (eq_sym Nx) E) p (or_introl eq_refl)))). rewrite Nx in Lp.
      destruct (update_player (time s) x p) as [y|] eqn:Ey, (update_player (time s) x' p) as [y'|]; cbn in Lp; try contradiction.
      + replace (pre ++ p :: r) with ((pre ++ [p]) ++ r) by (rewrite <- app_assoc; reflexivity). apply IH.
        * eapply like_mono; [exact Lp| |auto]. intros q [?|Hq]; [auto|]. apply in_app_iff in Hq as [?|[->|[]]]; auto.
        * apply update_player_ok in Ey as (Fy & _). rewrite (need_frame _ _ Fy). exact Nx.
        * intros q Hq; apply Hk; right; exact Hq.
        * intros E q Hq; apply Hc; [exact E|right; exact Hq].
      + split; [exact Lp|discriminate]. }
  destruct (St (akeys (c_players (cx s))) [] s s') as [L1 N1]; auto.
  { eapply like_mono; [exact L|intros q [?|[]]; assumption|auto]. }
  replace (time s') with (time s) by (unfold time; rewrite (lk_cx _ _ _ _ _ L); reflexivity).
  rewrite <- (lk_cx _ _ _ _ _ L). cbn [app] in L1.
  destruct (rfold _ s _) as [y|], (rfold _ s' _) as [y'|]; cbn in L1; try contradiction; [|exact L1].
  rewrite <- (like_need _ _ _ _ _ L1). destruct (need_commands y); [|exact L1].
  cbn. destruct L1. constructor; cbn; auto.
Qed.

Lemma remove1_like K C ob s s' pm : like K C ob s s' -> (forall p, active s p -> K p) ->
  rlike K C ob (remove_finished1 s pm) (remove_finished1 s' pm).
Proof.
  intros L HK. destruct pm as [p g]. unfold remove_finished1. unfold time. rewrite <- (lk_cx _ _ _ _ _ L).
  destruct (dmem (c_players (cx s)) p) eqn:Ea; [|exact L]. apply dmem_spec in Ea.
  destruct (dgetE _ p) as [md|]; [|reflexivity]. cbv zeta. destruct (goal_done _ _ _ _) as [[]|]; [|exact L|reflexivity].
  pose proof (with_logger_like _ _ _ _ _ p (log_state (c_time (cx s)) (get_state W md)) L (HK p Ea)) as L1.
  destruct (with_logger s p _) as [y|], (with_logger s' p _) as [y'|]; cbn in L1; try contradiction; [|exact L1].
  destruct L1. constructor; cbn; auto; [rewrite lk_cx0|rewrite lk_ev0]; reflexivity.
Qed.

Lemma cx_fold_like {B} K C ob (f : st W -> B -> result (st W)) (P : st W -> Prop) l :
  (forall x s s', P s -> like K C ob s s' -> rlike K C ob (f s x) (f s' x)) -> (forall x s s', P s -> f s x = Ok s' -> P s') ->
  forall s s', P s -> like K C ob s s' -> rlike K C ob (rfold f s l) (rfold f s' l).
Proof.
  intros H1 H2. induction l as [|x r IH]; cbn [rfold]; intros s s' Hp L; [exact L|].
  pose proof (H1 x s s' Hp L) as L1. destruct (f s x) as [y|] eqn:E, (f s' x) as [y'|]; cbn in L1; try contradiction; [|exact L1].
  apply IH; [eapply H2; eassumption|exact L1].
Qed.

Lemma check_env1_like K C ob p x s s' : like K C ob s s' -> rlike K C ob (check_env1 p s x) (check_env1 p s' x).
Proof.
  intros [E1 E2 E3 E4 E5 E6]. unfold check_env1, time. rewrite <- E1, <- E2.
  destruct (dgetE _ p) as [m|]; [|reflexivity]. destruct (item _ x) as [ob'|]; [|reflexivity].
  destruct (resolve_env W p ob' (c_time (cx s)) m) as [m' out]. cbv zeta.
  destruct out as [[r|]|e].
  - destruct (is_dyn W m'); constructor; cbn; auto.
  - constructor; cbn; auto.
  - destruct e; try reflexivity. destruct (is_dyn W m'); constructor; cbn; auto.
Qed.
Lemma check_pair_like K C ob x s s' : like K C ob s s' -> rlike K C ob (check_pair s x) (check_pair s' x).
Proof.
  intros [E1 E2 E3 E4 E5 E6]. destruct x as [p q]. unfold check_pair, time. rewrite <- E1, <- E2.
  destruct (dgetE _ p) as [a|]; [|reflexivity]. destruct (dgetE _ q) as [b|]; [|reflexivity].
  destruct (intersects _ _ _); [|constructor; auto].
  destruct (resolve W _ p q (c_time (cx s)) a b) as [[a' b'] out]. cbv zeta.
  destruct out as [[r|]|e].
  - constructor; cbn; auto.
  - constructor; cbn; auto.
  - destruct e; try reflexivity. constructor; cbn; auto.
Qed.

Lemma step_like K C s s' : Inv s -> like K C (need_commands s = false) s s' -> (forall p, active s p -> K p) ->
  (need_commands s = false -> forall p, active s p -> C p) ->
  rlike K (fun q => C q \/ active s q) True (step s) (step s').
Proof.
  intros I L HK HC. unfold step.
  assert (L1 : rlike K C True (pre_update s) (pre_update s')).
  { unfold pre_update. rewrite <- (like_need _ _ _ _ _ L), <- (lk_cx _ _ _ _ _ L). destruct (need_commands s) eqn:Nd.
    - destruct (rmapM _ _) as [obs|]; [|reflexivity]. destruct L. constructor; cbn; auto. intros _. unfold time. rewrite lk_cx0. reflexivity.
    - cbn. eapply like_mono; [exact L|auto|auto]. }
  destruct (pre_update s) as [s1|] eqn:E1, (pre_update s') as [s1'|]; cbn in L1; try contradiction; [|exact L1].
  apply pre_update_ok in E1 as (P1 & P2 & P3 & P4 & P5 & _).
  assert (A1 : forall p, active s1 p <-> active s p) by (intro p; unfold active; rewrite P1; tauto).
  assert (Nd1 : need_commands s1 = need_commands s) by (unfold need_commands, time, param; rewrite P3, P1; reflexivity).
  assert (L2 : rlike K (fun q => C q \/ active s q) True (update s1) (update s1')).
  { assert (N1 : NoDup (akeys (c_players (cx s1)))) by (rewrite P1; apply (i_nd _ I)).
    assert (H : rlike K (fun q => C q \/ active s1 q) (need_commands s1 = true) (update s1) (update s1')).
    { apply update_like; [eapply like_mono; [exact L1|auto|auto]| |exact N1|].
      - intros p Hp. apply HK, A1, Hp.
      - rewrite Nd1. intros E p Hp. apply HC; [exact E|apply A1; exact Hp]. }
    (* the observation of s1 is shared and update does not change it *)
    destruct (update s1) as [s2|] eqn:E2, (update s1') as [s2'|] eqn:E2'; cbn in H |- *; try contradiction; [|exact H].
    apply update_ok in E2 as ((x & F & _ & _ & O1 & _) & _); [|exact N1].
    assert (N1' : NoDup (akeys (c_players (cx s1')))) by (rewrite <- (lk_cx _ _ _ _ _ L1); exact N1).
    apply update_ok in E2' as ((x' & F' & _ & _ & O1' & _) & _); [|exact N1'].
    destruct H. constructor; auto.
    - intros q [Hq|Hq]; apply lk_cmds0; [left; exact Hq|right; apply A1; exact Hq].
    - intros _. rewrite O1, O1', (f_obs _ _ F), (f_obs _ _ F'). apply (lk_obs _ _ _ _ _ L1). exact Logic.I. }
  set (C' := fun q => C q \/ active s q) in *.
  destruct (update s1) as [s2|] eqn:E2, (update s1') as [s2'|] eqn:E2'; cbn in L2; try contradiction; [|exact L2].
  assert (A2 : forall p, active s2 p <-> active s p).
  { apply update_ok in E2 as ((x & F & Ux & _) & _); [|rewrite P1; apply (i_nd _ I)].
    intro p. unfold active. rewrite Ux, (f_players _ _ F), P1. tauto. }
  unfold post_update. cbv zeta.
  assert (L3 : like K C' True (upd_cx s2 (set_time (cx s2) (time s2 + dt (param s2)))) (upd_cx s2' (set_time (cx s2') (time s2' + dt (param s2'))))).
  { destruct L2. constructor; cbn; auto. unfold time, param. rewrite lk_cx0. reflexivity. }
  set (s2t := upd_cx s2 (set_time (cx s2) (time s2 + dt (param s2)))) in *.
  set (s2t' := upd_cx s2' (set_time (cx s2') (time s2' + dt (param s2')))) in *.
  assert (L4 : rlike K C' True (remove_finished s2t) (remove_finished s2t')).
  { unfold remove_finished. rewrite <- (lk_cx _ _ _ _ _ L3).
    apply cx_fold_like with (P := fun x => forall p, active x p -> K p); [| | |exact L3].
    - intros x a b HP Lab. apply remove1_like; assumption.
    - intros [p g] a b HP Hab. unfold remove_finished1 in Hab. destruct (dmem _ p); [|injection Hab as <-; exact HP].
      destruct (dgetE _ p); [|discriminate]. cbv zeta in Hab. destruct (goal_done _ _ _ _) as [[]|]; [|injection Hab as <-; exact HP|discriminate].
      destruct (with_logger a p _) as [y|] eqn:Ey; [|discriminate]. injection Hab as <-. apply with_logger_ev in Ey as [_ Ey].
      intros q Hq. apply HP. unfold active in *. cbn in Hq. rewrite Ey in Hq. eapply In_keys_ddel_sub; exact Hq.
    - intros p Hp. apply HK, A2. exact Hp. }
  destruct (remove_finished s2t) as [s3|] eqn:E3, (remove_finished s2t') as [s3'|]; cbn in L4; try contradiction; [|exact L4].
  assert (L5 : like K C' True (maybe_terminate s3) (maybe_terminate s3')).
  { destruct L4. constructor; cbn; auto. rewrite lk_cx0. reflexivity. }
  rewrite <- (lk_cx _ _ _ _ _ L5). destruct (c_term (cx (maybe_terminate s3))); [exact L5|].
  assert (L6 : rlike K C' True (check_env (maybe_terminate s3)) (check_env (maybe_terminate s3'))).
  { unfold check_env. rewrite <- (lk_cx _ _ _ _ _ L5). apply cx_fold_like with (P := fun _ => True); [|auto|auto|exact L5].
    intros p a b _ Lab. unfold check_env_player. rewrite <- (lk_cx _ _ _ _ _ Lab). destruct (dgetE _ p); [|reflexivity].
    apply cx_fold_like with (P := fun _ => True); [|auto|auto|exact Lab]. intros x y y' _ Ly. apply check_env1_like; exact Ly. }
  destruct (check_env (maybe_terminate s3)) as [s5|], (check_env (maybe_terminate s3')) as [s5'|]; cbn in L6; try contradiction; [|exact L6].
  unfold check_players. rewrite <- (lk_cx _ _ _ _ _ L6). apply cx_fold_like with (P := fun _ => True); [|auto|auto|exact L6].
  intros x y y' _ Ly. apply check_pair_like; exact Ly.
Qed.

Lemma loop_like c s0 : started c s0 -> 0 < dt (g_param (c_cfg c)) -> forall fuel k s s', after s0 k s ->
  like (fun p => In p (akeys (c_models c))) (fun p => active s p /\ s_last (sm s) <> None) (s_last (sm s) <> None) s s' ->
  match loop fuel s, loop fuel s' with
  | None, None => True
  | Some r, Some r' => rlike (fun p => In p (akeys (c_models c))) (fun _ => False) False r r'
  | _, _ => False
  end.
Proof.
  intros S D. induction fuel as [|f IH]; intros k s s' A L; cbn [loop]; rewrite <- (lk_cx _ _ _ _ _ L);
    destruct (c_term (cx s)) eqn:Et; try exact Logic.I.
  - eapply like_mono; [exact L|tauto|tauto].
  - eapply like_mono; [exact L|tauto|tauto].
  - pose proof (started_facts _ _ _ _ S D A) as F. pose proof (fa_inv _ _ _ _ F) as I.
    assert (Hl : need_commands s = false -> s_last (sm s) <> None).
    { intros Nd C. unfold need_commands in Nd. rewrite C in Nd. discriminate. }
    assert (L1 : rlike (fun p => In p (akeys (c_models c))) (fun q => (active s q /\ s_last (sm s) <> None) \/ active s q) True (step s) (step s')).
    { apply step_like; [exact I| | |].
      - eapply like_mono; [exact L|auto|auto].
      - intros p Hp. rewrite <- (fa_models _ _ _ _ F). apply (i_am _ I); exact Hp.
      - intros Nd p Hp. auto. }
    destruct (step s) as [s1|] eqn:Es, (step s') as [s1'|]; cbn in L1; try contradiction; [|exact L1].
    pose proof (after_step _ _ _ _ _ S D A Es) as R.
    apply (IH (Datatypes.S k)); [econstructor; eassumption|].
    eapply like_mono; [exact L1| |auto]. intros p [Hp _]. right. eapply srel_active; eassumption.
Qed.

Lemma init_like c m m' : unused m -> unused m' ->
  rlike (fun p => In p (akeys (c_players c))) (fun _ => False) False (init_run c m) (init_run c m').
Proof.
  intros U U'. unfold init_run.
  assert (St : forall l (pre : list player) x x', like (fun p => In p pre) (fun _ => False) False x x' ->
    rlike (fun p => In p (pre ++ l)) (fun _ => False) False (rfold init_player x l) (rfold init_player x' l)).
  { induction l as [|p r IH]; intros pre x x' L; cbn [rfold]; [rewrite app_nil_r; exact L|].
    assert (L1 : rlike (fun q => In q (pre ++ [p])) (fun _ => False) False (init_player x p) (init_player x' p)).
    { unfold init_player. rewrite <- (lk_cx _ _ _ _ _ L). destruct (dgetE (c_players (cx x)) p); [|reflexivity].
      destruct (dgetE (c_models (cx x)) p); [|reflexivity]. destruct (agent_init _ _ _ _ _ _ _); [|reflexivity].
      destruct L. constructor; cbn; auto.
      - intros q Hq. rewrite !dget_dset. destruct (Nat.eqb_spec p q); [reflexivity|]. apply lk_logs0. apply in_app_iff in Hq as [?|[->|[]]]; [assumption|congruence].
      }
    destruct (init_player x p), (init_player x' p); cbn in L1; try contradiction; [|exact L1].
    replace (pre ++ p :: r) with ((pre ++ [p]) ++ r) by (rewrite <- app_assoc; reflexivity). apply IH. exact L1. }
  apply (St (akeys (c_players c)) []). constructor; cbn; auto; [unfold unused in *; congruence|intros p []|intros p []|intros []].
Qed.

Lemma write_logs_like K C ob s s' : like K C ob s s' -> (forall p, In p (akeys (c_models (cx s))) -> K p) ->
  rlike K C ob (write_logs s) (write_logs s').
Proof.
  intros L HK. unfold write_logs. rewrite <- (lk_cx _ _ _ _ _ L).
  set (ks := akeys (c_models (cx s))) in *. clearbody ks. revert s s' L HK. induction ks as [|p r IH]; cbn [rfold]; intros s s' L HK; [exact L|].
  assert (L1 : rlike K C ob (write_log s p) (write_log s' p)).
  { unfold write_log, agetE. rewrite <- (lk_logs _ _ _ _ _ L p (HK p (or_introl eq_refl))).
    destruct (dget (s_logs (sm s)) p); [|reflexivity]. destruct (logger_as_sequence p0); [|reflexivity].
    destruct L. constructor; cbn; auto. rewrite lk_cx0. reflexivity. }
  destruct (write_log s p), (write_log s' p); cbn in L1; try contradiction; [|exact L1].
  apply IH; [exact L1|]. intros q Hq; apply HK; right; exact Hq.
Qed.

Lemma run_independent c m m' fuel : valid_ctx c -> 0 < dt (g_param (c_cfg c)) -> unused m -> unused m' ->
  match run fuel m c, run fuel m' c with
  | None, None => True
  | Some (Ok s), Some (Ok s') => cx s = cx s' /\ ev s = ev s'
  | Some (Err e), Some (Err e') => e = e'
  | _, _ => False
  end.
Proof.
  intros V D U U'. unfold run. pose proof (init_like c m m' U U') as L0.
  destruct (init_run c m) as [s0|] eqn:E0, (init_run c m') as [s0'|] eqn:E0'; cbn in L0; try contradiction; [|exact L0].
  assert (S : started c s0) by (split; [exact V|eauto]).
  destruct (valid_ctx_keys _ V) as [K1 K2].
  assert (L1 : like (fun p => In p (akeys (c_models c))) (fun p => active s0 p /\ s_last (sm s0) <> None) (s_last (sm s0) <> None) s0 s0').
  { destruct (started_start _ _ S) as (_ & _ & Hn & _). destruct L0. constructor; auto.
    - intros p Hp. apply lk_logs0, K1, Hp.
    - intros p [_ C]. contradiction. }
  pose proof (loop_like c s0 S D fuel 0%nat s0 s0' (after_0 s0) L1) as L2.
  destruct (loop fuel s0) as [r|] eqn:El, (loop fuel s0') as [r'|]; try contradiction; [|exact Logic.I].
  destruct r as [s|e], r' as [s'|e']; cbn in L2; try contradiction; [|exact L2].
  assert (Hk : akeys (c_models (cx s)) = akeys (c_models c)).
  { destruct (loop_after s0 fuel 0 s0 s (after_0 s0) El) as (k & A & _). apply (fa_models _ _ _ _ (started_facts _ _ _ _ S D A)). }
  pose proof (write_logs_like _ _ _ _ _ L2) as L3. rewrite Hk in L3. specialize (L3 (fun p H => H)).
  destruct (write_logs s), (write_logs s'); cbn in L3; try contradiction; [|exact L3]. destruct L3. auto.
Qed.
End Gone.
