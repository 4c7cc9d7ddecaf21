(** Runs of two contexts that differ in the order of their dicts go in step. *)
From Coq Require Import QArith Qcanon ZArith List Bool Arith Lia Permutation.
From Verif Require Import Base Num SeqModel SeqProofs SimulatorModel SimulatorSpec DictLemmas SimulatorProofs SimulatorProofs2 SimulatorProofs3 SimulatorProofs4 SimulatorProofs5 SimulatorProofs6 SimulatorProofs7 SimulatorProofs8 ReplayProofs CauseSpec CauseProofs OrderSpec.
Import ListNotations.
Open Scope Qc_scope.

Ltac inv_match H :=
  match type of H with
  | context [match ?x with _ => _ end] => destruct x eqn:?; try discriminate H
  end.

Lemma keys_perm {V} (d d' : list (player * V)) : Permutation d d' -> Permutation (akeys d) (akeys d').
Proof. apply Permutation_map. Qed.
Lemma dget_perm {V} (d d' : list (player * V)) : Permutation d d' -> NoDup (akeys d) -> forall q, dget d' q = dget d q.
Proof.
  induction 1 as [|[k v] d d' P IH|[k v] [k' v'] d|d d' d'' P IH P' IH']; intros N q; [reflexivity| | |].
  - unfold akeys in N. cbn [map fst] in N. inversion N; subst. rewrite !dget_cons, IH by assumption. reflexivity.
  - unfold akeys in N. cbn [map fst] in N. inversion N as [|? ? N1 N2]; subst. rewrite !dget_cons. destruct (Nat.eqb_spec k q) as [->|], (Nat.eqb_spec k' q) as [->|]; try reflexivity. exfalso. apply N1. left. reflexivity.
  - rewrite IH', IH; [reflexivity|exact N|]. eapply Permutation_NoDup; [apply keys_perm, P|exact N].
Qed.

Section Order.
Context {W : world} (Seen : player -> simobs (w_X W) (w_F W) -> Prop) (R : player -> w_S W * w_A W -> w_S W * w_A W -> Prop) (sc : w_scen W) (K : player -> Prop)
  (Gp : w_F W -> w_F W -> Prop) (other : report (w_D W) -> report (w_D W) -> Prop).
Implicit Types (s z : st W) (p q : player).
Hypothesis HR : forall p f a h b o o' f' g a1 u a2 x, R p (f, a) (h, b) -> Seen p o -> same_obs o o' ->
    sense W f sc o p = Ok (f', g) -> agent_cmds W a g = Ok (a1, u) -> agent_extra W a1 = Ok (a2, x) ->
    exists h' g' b1 b2, sense W h sc o' p = Ok (h', g') /\ agent_cmds W b g' = Ok (b1, u) /\ agent_extra W b1 = Ok (b2, x) /\ R p (f', a2) (h', b2).

Definition clean (l : list (event W)) : Prop :=
  (forall p q p' q' t out out', In (EPair p q t out) l -> In (EPair p' q' t out') l -> p' = p \/ p' = q \/ q' = p \/ q' = q -> p' = p /\ q' = q) /\ (forall p t full o u, In (EAsk p t full o u) l -> Seen p full).
Lemma clean_incl l l' : incl l l' -> clean l' -> clean l.
Proof. intros I (H1 & H2). split; eauto 10. Qed.

(** What the two states share, and what they have in common about one player. *)
Record shared (O : Prop) s z : Prop := mkShared {
  sh_scen : g_scen (c_cfg (cx s)) = sc;
  sh_scen' : g_scen (c_cfg (cx z)) = sc;
  sh_param : g_param (c_cfg (cx z)) = g_param (c_cfg (cx s));
  sh_time : c_time (cx z) = c_time (cx s);
  sh_last : s_last (sm z) = s_last (sm s);
  sh_obs : O -> same_obs (s_obs (sm s)) (s_obs (sm z));
  sh_nd : NoDup (akeys (c_players (cx s)));
  sh_nd' : NoDup (akeys (c_players (cx z)));
  sh_act : forall q, active s q -> K q;
  sh_act' : forall q, active z q -> K q
}.
Definition bis p (cs cz : ctx W) : Prop :=
  forall a, dget (c_players cs) p = Some a -> exists b, dget (c_players cz) p = Some b /\
     forall f, get_sensor cs p = Ok f -> exists h, get_sensor cz p = Ok h /\ R p (f, a) (h, b).
Record nearby (C O : Prop) p s z : Prop := mkNear {
  n_sh : shared O s z;
  n_K : K p;
  n_model : dget (c_models (cx z)) p = dget (c_models (cx s)) p;
  n_cmds : C -> dget (s_cmds (sm z)) p = dget (s_cmds (sm s)) p;
  n_log : logger_of z p = logger_of s p;
  n_mem : dmem (c_players (cx z)) p = dmem (c_players (cx s)) p;
  n_bis : bis p (cx s) (cx z)
}.

(** An operation on player [p] leaves the others alone. *)
Record off p s s1 : Prop := mkOff {
  o_cfg : c_cfg (cx s1) = c_cfg (cx s);
  o_tm : c_time (cx s1) = c_time (cx s);
  o_last : s_last (sm s1) = s_last (sm s);
  o_obs : s_obs (sm s1) = s_obs (sm s);
  o_nd : NoDup (akeys (c_players (cx s))) -> NoDup (akeys (c_players (cx s1)));
  o_act : forall q, active s1 q -> active s q;
  o_rest : forall q, q <> p -> dget (c_models (cx s1)) q = dget (c_models (cx s)) q /\ logger_of s1 q = logger_of s q /\ dget (s_cmds (sm s1)) q = dget (s_cmds (sm s)) q /\
     dget (c_players (cx s1)) q = dget (c_players (cx s)) q /\ dget (c_sensors (cx s1)) q = dget (c_sensors (cx s)) q
}.
Lemma off_refl p s : off p s s.
Proof. constructor; auto. Qed.
Lemma off_trans p s1 s2 s3 : off p s1 s2 -> off p s2 s3 -> off p s1 s3.
Proof.
  intros [] []. constructor; try congruence; auto.
  intros q N. destruct (o_rest0 q N) as (? & ? & ? & ? & ?), (o_rest1 q N) as (? & ? & ? & ? & ?). repeat split; congruence.
Qed.

Lemma near_off_l C O p q s z s1 : nearby C O q s z -> off p s s1 -> q <> p -> nearby C O q s1 z.
Proof.
  intros [[] ? ? ? ? ? B] [] N. destruct (o_rest0 q N) as (R1 & R2 & R3 & R4 & R5). constructor; try congruence.
  - constructor; rewrite ?o_cfg0, ?o_tm0, ?o_last0, ?o_obs0; auto.
  - intro X. rewrite R3. auto.
  - unfold dmem in *. rewrite R4. assumption.
  - unfold bis, get_sensor in *. rewrite R4, R5, o_cfg0. exact B.
Qed.
Lemma near_off_r C O p q s z z1 : nearby C O q s z -> off p z z1 -> q <> p -> nearby C O q s z1.
Proof.
  intros [[] ? ? ? ? ? B] [] N. destruct (o_rest0 q N) as (R1 & R2 & R3 & R4 & R5). constructor; try congruence.
  - constructor; rewrite ?o_cfg0, ?o_tm0, ?o_last0, ?o_obs0; auto.
  - intro X. rewrite R3. auto.
  - unfold dmem in *. rewrite R4. assumption.
  - unfold bis, get_sensor in *. rewrite R4, R5, o_cfg0. exact B.
Qed.
Lemma near_mono (C C' O O' : Prop) q s z : nearby C O q s z -> (C' -> C) -> (O' -> O) -> nearby C' O' q s z.
Proof. intros [[]] H1 H2. constructor; auto. constructor; auto. Qed.
Lemma need_shared O s z : shared O s z -> need_commands z = need_commands s.
Proof. intros []. unfold need_commands, param, time. rewrite sh_last0, sh_param0, sh_time0. reflexivity. Qed.
Lemma need_off p s s1 : off p s s1 -> need_commands s1 = need_commands s.
Proof. intros []. unfold need_commands, param, time. rewrite o_last0, o_cfg0, o_tm0. reflexivity. Qed.

(** The reports added. *)
Definition firsts (t : Qc) (f : option Qc) (rs : list (report (w_D W))) : option Qc := match rs with [] => f | _ => earlier t f end.
Record adds (rs : list (report (w_D W))) s s1 : Prop := mkAdds {
  ad_reports : c_reports (cx s1) = c_reports (cx s) ++ rs;
  ad_first : c_first (cx s1) = firsts (time s) (c_first (cx s)) rs;
  ad_time : time s1 = time s;
  ad_term : c_term (cx s1) = c_term (cx s)
}.
Lemma earlier_idem t f : earlier t (earlier t f) = earlier t f.
Proof.
  destruct f as [f|]; cbn.
  - destruct (qltb t f) eqn:E; cbn; [|rewrite E; reflexivity]. destruct (qltb t t); reflexivity.
  - destruct (qltb t t); reflexivity.
Qed.
Lemma firsts_app t f a b : firsts t (firsts t f a) b = firsts t f (a ++ b).
Proof. destruct a as [|x a], b as [|y b]; cbn; try reflexivity. apply earlier_idem. Qed.
Lemma adds_nil s : adds [] s s.
Proof. constructor; auto. rewrite app_nil_r. reflexivity. Qed.
Lemma adds_app a b s1 s2 s3 : adds a s1 s2 -> adds b s2 s3 -> adds (a ++ b) s1 s3.
Proof. intros [] []. constructor; try congruence. - rewrite ad_reports1, ad_reports0, app_assoc. reflexivity. - rewrite ad_first1, ad_first0, ad_time0. apply firsts_app. Qed.
Lemma adds_inj a b s s1 : adds a s s1 -> adds b s s1 -> a = b.
Proof. intros [H _ _ _] [H' _ _ _]. rewrite H in H'. eapply app_inv_head. exact H'. Qed.

(** ** Loops over permuted lists *)
Section Fold.
Context {B : Type} (k : B -> player) (f : st W -> B -> result (st W)) (C1 C2 : player -> Prop) (O : Prop) (P : st W -> Prop) (L : B -> Prop).
Hypothesis Hi : forall x s s1, f s x = Ok s1 -> incl (ev s) (ev s1).
Hypothesis Hoff : forall x s s1, f s x = Ok s1 -> off (k x) s s1.
Hypothesis Hadds : forall x s s1, f s x = Ok s1 -> exists rs, adds rs s s1.
Hypothesis HP : forall p s s1, P s -> off p s s1 -> P s1.
Hypothesis Hloc : forall x s z s1, L x -> nearby (C1 (k x)) O (k x) s z -> P s -> f s x = Ok s1 -> clean (ev s1) ->
  exists z1 rs, f z x = Ok z1 /\ nearby (C2 (k x)) O (k x) s1 z1 /\ adds rs s s1 /\ adds rs z z1.

Definition mine s s1 (xr : B * list (report (w_D W))) : Prop :=
  exists a a', f a (fst xr) = Ok a' /\ P a /\ clean (ev a') /\ adds (snd xr) a a' /\
    (forall z, nearby (C1 (k (fst xr))) O (k (fst xr)) s z -> nearby (C1 (k (fst xr))) O (k (fst xr)) a z) /\
    (forall z, nearby (C2 (k (fst xr))) O (k (fst xr)) a' z -> nearby (C2 (k (fst xr))) O (k (fst xr)) s1 z).

Lemma left_fold l : forall s s1, rfold f s l = Ok s1 -> clean (ev s1) -> P s -> NoDup (map k l) ->
  exists Rs, map fst Rs = l /\ adds (concat (map snd Rs)) s s1 /\ (forall q C z, ~ In q (map k l) -> nearby C O q s z -> nearby C O q s1 z) /\ forall xr, In xr Rs -> mine s s1 xr.
Proof.
  induction l as [|x l IH]; cbn [rfold map]; intros s s1 H Cl Ps N.
  - injection H as <-. exists []. split; [reflexivity|]. split; [apply adds_nil|]. split; [auto|intros xr []].
  - destruct (f s x) as [s2|] eqn:E; [|discriminate]. inversion N as [|? ? N1 N2]; subst.
    pose proof (Hoff _ _ _ E) as F. destruct (Hadds _ _ _ E) as (rs & Ad).
    destruct (IH _ _ H Cl (HP _ _ _ Ps F) N2) as (Rs & R1 & R2 & R3 & R4).
    exists ((x, rs) :: Rs). cbn [map fst snd concat]. split; [rewrite R1; reflexivity|]. split; [eapply adds_app; eassumption|]. split.
    + intros q C z Nq Nz. apply R3; [intro X; apply Nq; right; exact X|]. eapply near_off_l; [exact Nz|exact F|]. intros ->. apply Nq. left. reflexivity.
    + intros xr [<-|Hx].
      * exists s, s2. cbn [fst snd]. split; [exact E|]. split; [exact Ps|]. split; [eapply clean_incl; [apply (fold_incl f l Hi _ _ H)|exact Cl]|]. split; [exact Ad|]. split; [auto|]. intros z. apply R3. exact N1.
      * destruct (R4 xr Hx) as (a & a' & Q1 & Q2 & Q3 & Q4 & Q5 & Q6). exists a, a'. repeat (split; [assumption|]). split; [|exact Q6].
        intros z Nz. apply Q5. eapply near_off_l; [exact Nz|exact F|]. intro X. apply N1. rewrite <- X. apply in_map. rewrite <- R1. apply in_map. exact Hx.
Qed.

Lemma right_fold s s1 Rs : forall z, NoDup (map k (map fst Rs)) -> (forall xr, In xr Rs -> mine s s1 xr /\ L (fst xr)) -> (forall xr, In xr Rs -> nearby (C1 (k (fst xr))) O (k (fst xr)) s z) ->
  exists z1, rfold f z (map fst Rs) = Ok z1 /\ adds (concat (map snd Rs)) z z1 /\ (forall xr, In xr Rs -> nearby (C2 (k (fst xr))) O (k (fst xr)) s1 z1) /\
    (forall q C w, ~ In q (map k (map fst Rs)) -> nearby C O q w z -> nearby C O q w z1).
Proof.
  induction Rs as [|[x rs] Rs IH]; cbn [map rfold fst snd concat]; intros z N M Nz.
  - exists z. split; [reflexivity|]. split; [apply adds_nil|]. split; [intros xr []|auto].
  - inversion N as [|? ? N1 N2]; subst.
    destruct (M (x, rs) (or_introl eq_refl)) as [(a & a' & Q1 & Q2 & Q3 & Q4 & Q5 & Q6) Lx]. cbn [fst snd] in *.
    destruct (Hloc x a z a') as (z2 & rs' & E2 & Nr & Ad & Ad'); [exact Lx|apply Q5; apply (Nz (x, rs)); left; reflexivity|exact Q2|exact Q1|exact Q3|].
    rewrite (adds_inj _ _ _ _ Ad Q4) in Ad'. rewrite E2. pose proof (Hoff _ _ _ E2) as F.
    destruct (IH z2 N2) as (z1 & R1 & R2 & R3 & R4).
    + intros xr Hx. apply M. right. exact Hx.
    + intros xr Hx. eapply near_off_r; [apply Nz; right; exact Hx|exact F|]. intro X. apply N1. rewrite <- X. apply in_map, in_map. exact Hx.
    + exists z1. split; [exact R1|]. split; [eapply adds_app; eassumption|]. split.
      * intros xr [<-|Hx]; [|apply R3; exact Hx]. cbn [fst]. apply R4; [exact N1|]. apply Q6. exact Nr.
      * intros q C w Nq Nw. apply R4; [intro X; apply Nq; right; exact X|]. eapply near_off_r; [exact Nw|exact F|]. intros ->. apply Nq. left. reflexivity.
Qed.

Lemma fold_near l l' s z s1 : (forall q, K q -> nearby (C1 q) O q s z) -> (forall x, In x l -> K (k x)) -> (forall x, In x l -> L x) -> (forall q, ~ In q (map k l) -> C2 q -> C1 q) -> P s -> NoDup (map k l) -> Permutation l l' ->
  rfold f s l = Ok s1 -> clean (ev s1) ->
  exists z1 rs rs', rfold f z l' = Ok z1 /\ adds rs s s1 /\ adds rs' z z1 /\ Permutation rs rs' /\ forall q, K q -> nearby (C2 q) O q s1 z1.
Proof.
  intros A Hk HL Hc Ps N Pm H Cl. destruct (left_fold l s s1 H Cl Ps N) as (Rs & R1 & R2 & R3 & R4).
  rewrite <- R1 in Pm. apply Permutation_sym in Pm. destruct (Permutation_map_inv _ _ Pm) as (Rs' & E & Pm'). subst l'.
  assert (N' : NoDup (map k (map fst Rs'))). { eapply Permutation_NoDup; [|exact N]. rewrite <- R1. apply Permutation_map, Permutation_map. exact Pm'. }
  assert (I1 : forall xr, In xr Rs' -> In xr Rs) by (intros xr; apply Permutation_in, Permutation_sym; exact Pm').
  destruct (right_fold s s1 Rs' z N') as (z1 & Z1 & Z2 & Z3 & Z4); [intros xr Hx; split; [auto|apply HL; rewrite <- R1; apply in_map; auto]| |].
  { intros xr Hx. apply A, Hk. rewrite <- R1. apply in_map. auto. }
  exists z1, (concat (map snd Rs)), (concat (map snd Rs')). split; [exact Z1|]. split; [exact R2|]. split; [exact Z2|].
  split. { rewrite <- !flat_map_concat_map. apply Permutation_flat_map. exact Pm'. }
  intros q Kq. destruct (in_dec Nat.eq_dec q (map k (map fst Rs'))) as [I2|I2].
  - apply in_map_iff in I2 as (x & <- & Hx). apply in_map_iff in Hx as (xr & <- & Hx). apply Z3. exact Hx.
  - assert (I3 : ~ In q (map k l)). { intro X. apply I2. eapply Permutation_in; [|exact X]. rewrite <- R1. apply Permutation_map, Permutation_map. exact Pm'. }
    apply Z4; [exact I2|]. apply R3; [exact I3|]. eapply near_mono; [apply A; exact Kq|apply Hc; exact I3|auto].
Qed.
End Fold.

(** ** update *)
Lemma near_wl C O s z p f s1 : nearby C O p s z -> with_logger s p f = Ok s1 -> exists z1, with_logger z p f = Ok z1 /\ nearby C O p s1 z1 /\ cx s1 = cx s /\ cx z1 = cx z /\ sm s1 = set_logs (sm s) (s_logs (sm s1)) /\ sm z1 = set_logs (sm z) (s_logs (sm z1)).
Proof.
  intros A H. apply with_logger_ok in H as (l & l1 & L1 & L2 & ->). pose proof (n_log _ _ _ _ _ A) as L. rewrite L1 in L. unfold logger_of in L.
  eexists. split; [unfold with_logger, agetE; rewrite L, L2; reflexivity|]. split; [|repeat (split; [reflexivity|]); reflexivity].
  destruct A as [[]]. constructor; auto; [constructor; auto|]. unfold logger_of. cbn [sm upd_sm set_logs s_logs]. rewrite !dget_dset_same. reflexivity.
Qed.

Lemma ask_near C s z p t s1 : nearby C True p s z -> ask s p t = Ok s1 -> clean (ev s1) -> exists z1, ask z p t = Ok z1 /\ nearby True True p s1 z1.
Proof.
  intros A H Cl.
  assert (Sn : Seen p (s_obs (sm s))).
  { destruct (ask_ok _ _ _ _ H) as (f & f' & o & a & a' & a'' & u & x & l & _ & _ & _ & _ & _ & _ & _ & _ & _ & _ & _ & E & _). destruct Cl as (_ & Cl). apply (Cl p t (s_obs (sm s)) o u). rewrite E. left. reflexivity. }
  unfold ask in H.
  destruct (get_sensor (cx s) p) as [f|] eqn:E1; [|discriminate].
  destruct (sense W f _ _ p) as [[f' o]|] eqn:E2; [|discriminate].
  destruct (dgetE (c_players (cx s)) p) as [a|] eqn:E3; [|discriminate]. apply agetE_Ok in E3.
  destruct (agent_cmds W a o) as [[a' u]|] eqn:E4; [|discriminate]. cbv zeta in H.
  match type of H with context [with_logger ?x p (log_command t u)] => set (s2 := x) in H end.
  destruct (with_logger s2 p (log_command t u)) as [s3|] eqn:E5; [|discriminate].
  destruct (with_logger s3 p (log_info t (cpu_time W p t))) as [s4|] eqn:E6; [|discriminate].
  destruct (agent_extra W a') as [[a'' x]|] eqn:E7; [|discriminate].
  destruct (n_bis _ _ _ _ _ A a E3) as (b & B1 & B2). destruct (B2 f E1) as (h & B3 & B4).
  pose proof (n_sh _ _ _ _ _ A) as Sh. rewrite (sh_scen _ _ _ Sh) in E2.
  destruct (HR p f a h b _ _ _ _ _ _ _ _ B4 Sn (sh_obs _ _ _ Sh I) E2 E4 E7) as (h' & g' & b1 & b2 & G1 & G2 & G3 & G4).
  unfold ask. rewrite B3, (sh_scen' _ _ _ Sh), G1. unfold agetE. rewrite B1, G2. cbv zeta.
  match goal with |- context [with_logger ?x p (log_command t u)] => set (z2 := x) end.
  assert (Ks : In p (akeys (c_players (cx s)))) by (eapply dget_Some_In; exact E3).
  assert (Kz : In p (akeys (c_players (cx z)))) by (eapply dget_Some_In; exact B1).
  (* the intermediate states, in which the relation between agents is left out *)
  pose (mid := fun (x y : st W) => shared True x y /\ dget (c_models (cx y)) p = dget (c_models (cx x)) p /\ dget (s_cmds (sm y)) p = dget (s_cmds (sm x)) p /\ logger_of y p = logger_of x p).
  assert (Mwl : forall x y g x1, mid x y -> with_logger x p g = Ok x1 -> exists y1, with_logger y p g = Ok y1 /\ mid x1 y1 /\ cx x1 = cx x /\ cx y1 = cx y).
  { intros x0 y g x1 (M1 & M2 & M3 & M4) Hx. apply with_logger_ok in Hx as (l & l1 & L1 & L2 & ->). rewrite L1 in M4. unfold logger_of in M4.
    eexists. split; [unfold with_logger, agetE; rewrite M4, L2; reflexivity|]. split; [|split; reflexivity]. split; [destruct M1; constructor; auto|]. repeat (split; [assumption|]).
    unfold logger_of. cbn [sm upd_sm set_logs s_logs]. rewrite !dget_dset_same. reflexivity. }
  assert (M2 : mid s2 z2).
  { split; [|split; [|split]].
    - clear - Sh Ks Kz. destruct Sh. constructor; auto.
      + cbn [s2 cx set_players set_sensors c_players]. apply NoDup_dset. assumption.
      + cbn [z2 cx set_players set_sensors c_players]. apply NoDup_dset. assumption.
      + intros q. unfold active. cbn [z2 s2 cx set_players set_sensors c_players]. rewrite keys_dset by exact Ks. apply sh_act0.
      + intros q. unfold active. cbn [z2 s2 cx set_players set_sensors c_players]. rewrite keys_dset by exact Kz. apply sh_act'0.
    - apply (n_model _ _ _ _ _ A).
    - cbn [z2 s2 sm set_cmds s_cmds]. rewrite !dget_dset_same. reflexivity.
    - apply (n_log _ _ _ _ _ A). }
  destruct (Mwl _ _ _ _ M2 E5) as (z3 & W3 & M3 & X3 & Y3). rewrite W3.
  destruct (Mwl _ _ _ _ M3 E6) as (z4 & W4 & M4 & X4 & Y4). rewrite W4, G3.
  match type of H with context [upd_cx s4 ?x] => set (s5 := upd_cx s4 x) in H end.
  match goal with |- context [upd_cx z4 ?x] => set (z5 := upd_cx z4 x) end.
  assert (M5 : mid s5 z5).
  { assert (Ks4 : In p (akeys (c_players (cx s4)))). { rewrite X4, X3. cbn. apply In_keys_dset. auto. }
    assert (Kz4 : In p (akeys (c_players (cx z4)))). { rewrite Y4, Y3. cbn. apply In_keys_dset. auto. }
    destruct M4 as (M4 & MB & MC & MD). split; [|split; [exact MB|split; [exact MC|exact MD]]]. clear - M4 Ks4 Kz4. destruct M4. constructor; auto.
    + cbn [s5 cx upd_cx set_players c_players]. apply NoDup_dset. assumption.
    + cbn [z5 cx upd_cx set_players c_players]. apply NoDup_dset. assumption.
    + intros q. unfold active. cbn [z5 s5 cx upd_cx set_players c_players]. rewrite keys_dset by exact Ks4. apply sh_act0.
    + intros q. unfold active. cbn [z5 s5 cx upd_cx set_players c_players]. rewrite keys_dset by exact Kz4. apply sh_act'0. }
  assert (Fin : forall x y, mid x y -> cx x = cx s5 -> cx y = cx z5 -> nearby True True p x y).
  { intros x0 y (D1 & D2 & D3 & D4) Ex Ey. constructor; auto; [apply (n_K _ _ _ _ _ A)| |]; rewrite Ex, Ey.
    - unfold dmem. cbn [s5 z5 cx upd_cx set_players c_players]. rewrite !dget_dset_same. reflexivity.
    - intros k. unfold get_sensor. cbn [s5 z5 cx upd_cx set_players c_players c_sensors c_cfg]. rewrite X4, X3, Y4, Y3. cbn [s2 z2 cx set_players set_sensors c_players c_sensors c_cfg].
      rewrite !dget_dset_same. intros [= <-]. exists b2. split; [reflexivity|]. intros f0 [= <-]. exists h'. auto. }
  destruct x as [v|]; [|injection H as <-; exists z5; split; [reflexivity|apply Fin; auto]].
  destruct (Mwl _ _ _ _ M5 H) as (z6 & W6 & M6 & X6 & Y6). exists z6. split; [exact W6|]. apply Fin; auto.
Qed.

Lemma player_near (C O : Prop) t s z p s1 : nearby C O p s z -> (need_commands s = true -> O) -> (need_commands s = false -> C) -> update_player t s p = Ok s1 -> clean (ev s1) ->
  exists z1, update_player t z p = Ok z1 /\ nearby True O p s1 z1.
Proof.
  intros A HO Hc H Cl. unfold update_player in *.
  unfold agetE at 1. rewrite (n_model _ _ _ _ _ A). fold (dgetE (c_models (cx s)) p).
  destruct (dgetE (c_models (cx s)) p) as [m|] eqn:E1; [|discriminate].
  destruct (with_logger s p _) as [s2|] eqn:E2; [|discriminate].
  destruct (near_wl _ _ _ _ _ _ _ A E2) as (z2 & W2 & A2 & X2 & Y2 & _). rewrite W2.
  assert (N2 : need_commands s2 = need_commands s) by (apply with_logger_ok in E2 as (? & ? & _ & _ & ->); reflexivity).
  rewrite (need_shared _ _ _ (n_sh _ _ _ _ _ A2)), N2. rewrite N2 in H.
  assert (X : forall s3, (if need_commands s then ask s2 p t else Ok s2) = Ok s3 -> clean (ev s3) ->
    exists z3, (if need_commands s then ask z2 p t else Ok z2) = Ok z3 /\ nearby True O p s3 z3).
  { intros s3 H3 P3. destruct (need_commands s) eqn:Nd.
    - specialize (HO eq_refl). destruct (ask_near C s2 z2 p t s3) as (z3 & Z1 & Z2); auto.
      + eapply near_mono; [exact A2| |]; auto.
      + exists z3. split; [exact Z1|]. eapply near_mono; [exact Z2| |]; auto.
    - injection H3 as <-. exists z2. split; [reflexivity|]. eapply near_mono; [eassumption| |]; auto. }
  destruct (if need_commands s then ask s2 p t else Ok s2) as [s3|] eqn:E3; [|discriminate].
  destruct (dgetE (s_cmds (sm s3)) p) as [u|] eqn:E4; [|discriminate].
  destruct (dgetE (c_models (cx s3)) p) as [m2|] eqn:E5; [|discriminate].
  destruct (model_step W m2 u (dt (param s3))) as [m'|] eqn:E6; [|discriminate]. injection H as <-.
  destruct (X s3 eq_refl) as (z3 & X1 & A3). { eapply clean_incl; [|exact Cl]. cbn. apply incl_tl, incl_refl. }
  rewrite X1. unfold agetE in *. rewrite (n_cmds _ _ _ _ _ A3 I), (n_model _ _ _ _ _ A3).
  destruct (dget (s_cmds (sm s3)) p) as [u'|]; [|discriminate]. injection E4 as ->.
  destruct (dget (c_models (cx s3)) p) as [m2'|]; [|discriminate]. injection E5 as ->.
  unfold param in *. rewrite (sh_param _ _ _ (n_sh _ _ _ _ _ A3)), E6.
  eexists. split; [reflexivity|]. clear - A3. destruct A3 as [[]]. constructor; auto; [constructor; auto|].
  cbn [cx set_models c_models]. rewrite !dget_dset_same. reflexivity.
Qed.

Lemma off_player t p s s1 : update_player t s p = Ok s1 -> off p s s1.
Proof.
  intro H. apply update_player_ok in H as (F & _ & V). destruct F. constructor; auto.
  - rewrite f_players. auto.
  - unfold active. rewrite f_players. auto.
  - intros q N. specialize (V q N). unfold view, model_of in V. repeat split; congruence.
Qed.
Lemma adds_player t p s s1 : update_player t s p = Ok s1 -> adds [] s s1.
Proof. intro H. apply update_player_ok in H as (F & _). destruct F. constructor; auto. rewrite app_nil_r. exact f_reports. Qed.

(** ** post_update *)
Lemma off_remove pm s s1 : remove_finished1 s pm = Ok s1 -> off (fst pm) s s1.
Proof.
  destruct pm as [p g]. cbn [fst]. unfold remove_finished1. intro H. destruct (dmem (c_players (cx s)) p); [|injection H as <-; apply off_refl].
  destruct (dgetE (c_models (cx s)) p) as [md|]; [|discriminate]. cbv zeta in H. destruct (goal_done W g _ _) as [[]|]; [|injection H as <-; apply off_refl|discriminate].
  destruct (with_logger s p _) as [s2|] eqn:E2; [|discriminate]. injection H as <-. apply with_logger_ok in E2 as (l & l1 & _ & _ & ->). constructor; auto; cbn.
  - apply NoDup_ddel.
  - unfold active. cbn. intros q. apply In_keys_ddel_sub.
  - intros q N. unfold logger_of. cbn. rewrite dget_dset_other, dget_ddel_other by congruence. auto.
Qed.
Lemma adds_remove pm s s1 : remove_finished1 s pm = Ok s1 -> adds [] s s1.
Proof.
  destruct pm as [p g]. unfold remove_finished1. intro H. destruct (dmem (c_players (cx s)) p); [|injection H as <-; apply adds_nil].
  destruct (dgetE (c_models (cx s)) p) as [md|]; [|discriminate]. cbv zeta in H. destruct (goal_done W g _ _) as [[]|]; [|injection H as <-; apply adds_nil|discriminate].
  destruct (with_logger s p _) as [s2|] eqn:E2; [|discriminate]. injection H as <-. apply with_logger_ok in E2 as (l & l1 & _ & _ & ->). constructor; auto. cbn. rewrite app_nil_r. reflexivity.
Qed.
Lemma remove_near C O pm s z s1 : nearby C O (fst pm) s z -> remove_finished1 s pm = Ok s1 -> exists z1, remove_finished1 z pm = Ok z1 /\ nearby C O (fst pm) s1 z1.
Proof.
  destruct pm as [p g]. cbn [fst]. intros A H. unfold remove_finished1 in *. rewrite (n_mem _ _ _ _ _ A).
  destruct (dmem (c_players (cx s)) p) eqn:Ea; [|injection H as <-; eexists; split; [reflexivity|assumption]].
  unfold agetE in *. rewrite (n_model _ _ _ _ _ A). destruct (dget (c_models (cx s)) p) as [md|]; [|discriminate]. cbv zeta in *.
  unfold time in *. rewrite (sh_time _ _ _ (n_sh _ _ _ _ _ A)). destruct (goal_done W g (get_state W md) (c_time (cx s))) as [[]|]; [|injection H as <-; eexists; split; [reflexivity|assumption]|discriminate].
  destruct (with_logger s p _) as [s2|] eqn:E2; [|discriminate]. injection H as <-.
  destruct (near_wl _ _ _ _ _ _ _ A E2) as (z2 & W2 & A2 & X2 & Y2 & _). rewrite W2.
  eexists. split; [reflexivity|]. destruct A2 as [[] ? ? ? ? ? ?]. constructor; auto; [constructor; auto| |]; cbn [cx set_players c_players].
  - apply NoDup_ddel. assumption.
  - apply NoDup_ddel. assumption.
  - unfold active. cbn [cx set_players c_players]. intros q Hq. apply sh_act0. eapply In_keys_ddel_sub. exact Hq.
  - unfold active. cbn [cx set_players c_players]. intros q Hq. apply sh_act'0. eapply In_keys_ddel_sub. exact Hq.
  - unfold dmem. rewrite !dget_ddel_same by assumption. reflexivity.
  - intros a. cbn [set_players c_players]. rewrite dget_ddel_same by assumption. discriminate.
Qed.

Lemma off_env1 p x s s1 : check_env1 p s x = Ok s1 -> off p s s1.
Proof.
  unfold check_env1. intro H. destruct (dgetE (c_models (cx s)) p) as [m|]; [|discriminate]. destruct (item _ x) as [o|]; [|discriminate].
  destruct (resolve_env W p o (time s) m) as [m' out]. cbv zeta in H.
  assert (Y : forall c' l, c_cfg c' = c_cfg (cx s) -> c_time c' = c_time (cx s) -> c_players c' = c_players (cx s) -> c_sensors c' = c_sensors (cx s) -> c_models c' = dset (c_models (cx s)) p m' -> off p s (mkSt c' (sm s) l)).
  { intros c' l E1 E2 E3 E4 E5. constructor; cbn; auto; [rewrite E3; auto|unfold active; cbn; rewrite E3; auto|]. intros q N. rewrite E3, E4, E5, dget_dset_other by congruence. auto. }
  destruct out as [[r|]|e]; try (destruct e; try discriminate); try (destruct (is_dyn W m')); injection H as <-; apply Y; reflexivity.
Qed.
Lemma env1_near C O p x s z s1 : nearby C O p s z -> check_env1 p s x = Ok s1 -> exists z1 rs, check_env1 p z x = Ok z1 /\ nearby C O p s1 z1 /\ adds rs s s1 /\ adds rs z z1.
Proof.
  intros A H. unfold check_env1, time, agetE in *. rewrite (n_model _ _ _ _ _ A), (sh_scen' _ _ _ (n_sh _ _ _ _ _ A)), (sh_time _ _ _ (n_sh _ _ _ _ _ A)). rewrite (sh_scen _ _ _ (n_sh _ _ _ _ _ A)) in H.
  destruct (dget (c_models (cx s)) p) as [m|]; [|discriminate]. destruct (item (obstacles W sc) x) as [o|]; [|discriminate].
  destruct (resolve_env W p o (c_time (cx s)) m) as [m' out]. cbv zeta in *.
  assert (M : dget (dset (c_models (cx z)) p m') p = dget (dset (c_models (cx s)) p m') p) by (rewrite !dget_dset_same; reflexivity).
  pose proof (sh_time _ _ _ (n_sh _ _ _ _ _ A)) as Tm. destruct A as [[]].
  assert (Y : forall r f r' f' l l', nearby C O p (mkSt (set_reports (set_models (cx s) (dset (c_models (cx s)) p m')) r f) (sm s) l) (mkSt (set_reports (set_models (cx z) (dset (c_models (cx z)) p m')) r' f') (sm z) l')).
  { intros. constructor; auto. constructor; auto. }
  assert (Y0 : forall l l', nearby C O p (mkSt (set_models (cx s) (dset (c_models (cx s)) p m')) (sm s) l) (mkSt (set_models (cx z) (dset (c_models (cx z)) p m')) (sm z) l')).
  { intros. constructor; auto. constructor; auto. }
  assert (Z0 : forall (x : st W) l, adds [] x (mkSt (set_models (cx x) (dset (c_models (cx x)) p m')) (sm x) l)).
  { intros. constructor; auto. cbn. rewrite app_nil_r. reflexivity. }
  assert (Z1 : forall (x : st W) r l, c_time (cx x) = c_time (cx s) -> adds [r] x (mkSt (set_reports (set_models (cx x) (dset (c_models (cx x)) p m')) (c_reports (cx x) ++ [r]) (earlier (c_time (cx s)) (c_first (cx x)))) (sm x) l)).
  { intros x0 r l Ht. constructor; auto. cbn. unfold time. rewrite Ht. reflexivity. }
  destruct out as [[r|]|e].
  - destruct (is_dyn W m'); injection H as <-; [eexists; exists []|eexists; exists [r]]; (split; [reflexivity|]); [split; [apply Y0|split; apply Z0]|split; [apply Y|split; [apply (Z1 s r)|apply (Z1 z r)]; auto]].
  - injection H as <-. eexists; exists []; split; [reflexivity|]. split; [apply Y0|]. split; apply Z0.
  - destruct e; try discriminate. destruct (is_dyn W m'); injection H as <-; [eexists; exists []|eexists; exists [SimulatorModel.mkRep [p] (c_time (cx s)) None]]; (split; [reflexivity|]); [split; [apply Y0|split; apply Z0]|split; [apply Y|split; [apply (Z1 s)|apply (Z1 z)]; auto]].
Qed.
Lemma env1_adds p x s s1 : check_env1 p s x = Ok s1 -> exists rs, adds rs s s1.
Proof.
  unfold check_env1. intro H. destruct (dgetE (c_models (cx s)) p) as [m|]; [|discriminate]. destruct (item _ x) as [o|]; [|discriminate].
  destruct (resolve_env W p o (time s) m) as [m' out]. cbv zeta in H.
  assert (Z0 : forall l, exists rs, adds rs s (mkSt (set_models (cx s) (dset (c_models (cx s)) p m')) (sm s) l)).
  { intros. exists []. constructor; auto. cbn. rewrite app_nil_r. reflexivity. }
  assert (Z1 : forall r l, exists rs, adds rs s (mkSt (set_reports (set_models (cx s) (dset (c_models (cx s)) p m')) (c_reports (cx s) ++ [r]) (earlier (time s) (c_first (cx s)))) (sm s) l)).
  { intros r l. exists [r]. constructor; auto. }
  destruct out as [[r|]|e]; try (destruct e; try discriminate); try (destruct (is_dyn W m')); injection H as <-; first [apply Z0|apply Z1].
Qed.

Lemma env_list p l : forall s s1, rfold (check_env1 p) s l = Ok s1 -> off p s s1 /\ exists rs, adds rs s s1.
Proof.
  induction l as [|x l IH]; cbn [rfold]; intros s s1 H; [injection H as <-; split; [apply off_refl|exists []; apply adds_nil]|].
  destruct (check_env1 p s x) as [s2|] eqn:E; [|discriminate]. destruct (IH _ _ H) as (F & rs & Ad). destruct (env1_adds _ _ _ _ E) as (rs' & Ad'). split; [eapply off_trans; [eapply off_env1; exact E|exact F]|].
  eexists. eapply adds_app; eassumption.
Qed.
Lemma env_list_near C O p l : forall s z s1, nearby C O p s z -> rfold (check_env1 p) s l = Ok s1 -> exists z1 rs, rfold (check_env1 p) z l = Ok z1 /\ nearby C O p s1 z1 /\ adds rs s s1 /\ adds rs z z1.
Proof.
  induction l as [|x l IH]; cbn [rfold]; intros s z s1 A H; [injection H as <-; exists z, []; repeat (split; [assumption || reflexivity || apply adds_nil|]); apply adds_nil|].
  destruct (check_env1 p s x) as [s2|] eqn:E; [|discriminate]. destruct (env1_near _ _ _ _ _ _ _ A E) as (z2 & rs & E2 & A2 & Ad & Ad'). rewrite E2.
  destruct (IH _ _ _ A2 H) as (z1 & rs' & E1 & A1 & B1 & B2). exists z1, (rs ++ rs'). split; [exact E1|]. split; [exact A1|]. split; eapply adds_app; eassumption.
Qed.
Lemma env_near C O p s z s1 : nearby C O p s z -> check_env_player s p = Ok s1 -> exists z1 rs, check_env_player z p = Ok z1 /\ nearby C O p s1 z1 /\ adds rs s s1 /\ adds rs z z1.
Proof.
  intros A H. unfold check_env_player, agetE in *. rewrite (n_model _ _ _ _ _ A), (sh_scen' _ _ _ (n_sh _ _ _ _ _ A)). rewrite (sh_scen _ _ _ (n_sh _ _ _ _ _ A)) in H.
  destruct (dget (c_models (cx s)) p) as [m|]; [|discriminate]. eapply env_list_near; eassumption.
Qed.
Lemma env_off p s s1 : check_env_player s p = Ok s1 -> off p s s1 /\ exists rs, adds rs s s1.
Proof. unfold check_env_player. intro H. destruct (dgetE _ p); [|discriminate]. eapply env_list. exact H. Qed.
Lemma env_incl p s s1 : check_env_player s p = Ok s1 -> incl (ev s) (ev s1).
Proof. unfold check_env_player. intro H. inv_match H. apply (fold_incl _ _ (env1_incl p)) in H. exact H. Qed.

(** Pairs: nobody touches anybody. *)
(** What a pair of players does if they touch. *)
Definition touchb s (x : player * player) : bool :=
  match dget (c_models (cx s)) (fst x), dget (c_models (cx s)) (snd x) with Some a, Some b => intersects W (footprint W a) (footprint W b) | _, _ => false end.
Definition reps s (x : player * player) : list (report (w_D W)) :=
  match dget (c_models (cx s)) (fst x), dget (c_models (cx s)) (snd x) with
  | Some a, Some b => match snd (resolve W (g_scen (c_cfg (cx s))) (fst x) (snd x) (time s) a b) with Ok (Some r) => [r] | Err CollisionException => [SimulatorModel.mkRep [fst x; snd x] (time s) None] | _ => [] end
  | _, _ => []
  end.
Definition fine s (x : player * player) : Prop :=
  exists a b, dget (c_models (cx s)) (fst x) = Some a /\ dget (c_models (cx s)) (snd x) = Some b /\
    match snd (resolve W (g_scen (c_cfg (cx s))) (fst x) (snd x) (time s) a b) with Err CollisionException => True | Err _ => False | Ok _ => True end.
Definition firstr (f : option Qc) (rs : list (report (w_D W))) : option Qc := fold_left (fun f r => earlier (r_time r) f) rs f.
Record effect (T : list (player * player)) s s1 : Prop := mkEff {
  e_cx : cx s1 = set_reports (set_models (cx s) (c_models (cx s1))) (c_reports (cx s1)) (c_first (cx s1));
  e_sm : sm s1 = sm s;
  e_in : forall p q a b, In (p, q) T -> dget (c_models (cx s)) p = Some a -> dget (c_models (cx s)) q = Some b ->
    dget (c_models (cx s1)) p = Some (fst (fst (resolve W (g_scen (c_cfg (cx s))) p q (time s) a b))) /\
    dget (c_models (cx s1)) q = Some (snd (fst (resolve W (g_scen (c_cfg (cx s))) p q (time s) a b)));
  e_out : forall r, (forall p q, In (p, q) T -> r <> p /\ r <> q) -> dget (c_models (cx s1)) r = dget (c_models (cx s)) r;
  e_reps : c_reports (cx s1) = c_reports (cx s) ++ flat_map (reps s) T;
  e_first : c_first (cx s1) = firstr (c_first (cx s)) (flat_map (reps s) T)
}.
Definition disjoint_pairs (T : list (player * player)) : Prop :=
  forall p q p' q', In (p, q) T -> In (p', q') T -> p' = p \/ p' = q \/ q' = p \/ q' = q -> p' = p /\ q' = q.
Lemma effect_nil s : effect [] s s.
Proof. constructor; auto; [|intros p q a b []|rewrite app_nil_r; reflexivity]. destruct s as [[] ?]. reflexivity. Qed.

Lemma pair_skip s x : touchb s x = false -> dget (c_models (cx s)) (fst x) <> None -> dget (c_models (cx s)) (snd x) <> None -> check_pair s x = Ok s.
Proof.
  destruct x as [p q]. unfold touchb, check_pair, agetE. cbn [fst snd]. destruct (dget (c_models (cx s)) p) as [a|]; [|congruence]. destruct (dget (c_models (cx s)) q) as [b|]; [|congruence]. intros -> _ _. reflexivity.
Qed.
Lemma pair_have s x s1 : check_pair s x = Ok s1 -> dget (c_models (cx s)) (fst x) <> None /\ dget (c_models (cx s)) (snd x) <> None.
Proof.
  destruct x as [p q]. unfold check_pair, agetE. cbn [fst snd]. destruct (dget (c_models (cx s)) p) as [a|]; [|discriminate]. destruct (dget (c_models (cx s)) q) as [b|]; [|discriminate]. split; discriminate.
Qed.
Lemma pair_do s p q : touchb s (p, q) = true -> fine s (p, q) -> p <> q -> exists s1 out, check_pair s (p, q) = Ok s1 /\ effect [(p, q)] s s1 /\ In (EPair p q (time s) out) (ev s1).
Proof.
  intros T (a & b & Ea & Eb & F) N. unfold touchb in T. cbn [fst snd] in *. rewrite Ea, Eb in T. unfold check_pair, agetE. rewrite Ea, Eb, T.
  destruct (resolve W (g_scen (c_cfg (cx s))) p q (time s) a b) as [[a' b'] out] eqn:Er. cbn [snd] in F.
  assert (X : forall rs f, effect [(p, q)] s (mkSt (set_reports (set_models (cx s) (dset (dset (c_models (cx s)) p a') q b')) (c_reports (cx s) ++ rs) f) (sm s) (EPair p q (time s) out :: ev s)) <-> (rs = reps s (p, q) /\ f = firstr (c_first (cx s)) rs)).
  { intros rs f. split.
    - intros [_ _ _ _ H1 H2]. cbn in H1, H2. rewrite !app_nil_r in H1, H2. apply app_inv_head in H1. subst rs. auto.
    - intros [-> ->]. constructor; cbn [cx sm c_models set_reports set_models c_reports c_first flat_map]; rewrite ?app_nil_r; auto.
      + intros p0 q0 a0 b0 [[= <- <-]|[]] E0 E1. rewrite Ea in E0. rewrite Eb in E1. injection E0 as <-. injection E1 as <-. rewrite Er. cbn [fst snd].
        split; [rewrite dget_dset_other by congruence; apply dget_dset_same|apply dget_dset_same].
      + intros r Hr. destruct (Hr p q (or_introl eq_refl)). rewrite !dget_dset_other by congruence. reflexivity. }
  assert (Rp : reps s (p, q) = match out with Ok (Some r) => [r] | Err CollisionException => [SimulatorModel.mkRep [p; q] (time s) None] | _ => [] end) by (unfold reps; cbn [fst snd]; rewrite Ea, Eb, Er; reflexivity).
  rewrite Rp in X. destruct out as [[r|]|e]; [| |destruct e; try contradiction]; cbv zeta; (eexists; eexists; split; [reflexivity|]); (split; [|left; reflexivity]).
  - apply (X [r]). auto.
  - pose proof (proj2 (X [] (c_first (cx s)))) as Y. rewrite app_nil_r in Y. specialize (Y (conj eq_refl eq_refl)).
    destruct Y as [Y1 Y2 Y3 Y4 Y5 Y6]. constructor; auto.
  - apply (X [_]). auto.
Qed.
Lemma pair_split s p q s1 : check_pair s (p, q) = Ok s1 -> p <> q -> (touchb s (p, q) = false /\ s1 = s) \/ (touchb s (p, q) = true /\ fine s (p, q) /\ effect [(p, q)] s s1 /\ exists out, In (EPair p q (time s) out) (ev s1)).
Proof.
  intros H N. destruct (pair_have _ _ _ H) as [Hp Hq]. destruct (touchb s (p, q)) eqn:T.
  - right. assert (Fi : fine s (p, q)).
    { unfold check_pair, agetE in H. unfold touchb in T. unfold fine. cbn [fst snd] in *. destruct (dget (c_models (cx s)) p) as [a|]; [|congruence]. destruct (dget (c_models (cx s)) q) as [b|]; [|congruence].
      rewrite T in H. exists a, b. split; [reflexivity|]. split; [reflexivity|]. destruct (resolve W (g_scen (c_cfg (cx s))) p q (time s) a b) as [[a' b'] out]. cbn [snd]. destruct out as [[r|]|[]]; cbv zeta in H; auto; discriminate. }
    destruct (pair_do s p q T Fi N) as (s2 & out & E & Ef & I1). rewrite E in H. injection H as ->. eauto 10.
  - left. rewrite (pair_skip s (p, q) T Hp Hq) in H. injection H as <-. auto.
Qed.
Lemma effect_scen T s s1 : effect T s s1 -> c_cfg (cx s1) = c_cfg (cx s) /\ time s1 = time s.
Proof. intros [E _ _ _ _ _]. unfold time. rewrite E. auto. Qed.

Lemma fold_have l : forall s s1, rfold check_pair s l = Ok s1 -> forall x, In x l -> dget (c_models (cx s)) (fst x) <> None /\ dget (c_models (cx s)) (snd x) <> None.
Proof.
  induction l as [|[p q] l IH]; cbn [rfold]; intros s s1 H x I1; [contradiction|]. destruct (check_pair s (p, q)) as [s2|] eqn:E; [|discriminate].
  destruct I1 as [<-|I1]; [eapply pair_have; exact E|]. specialize (IH _ _ H x I1).
  assert (X : forall r, dget (c_models (cx s2)) r <> None -> dget (c_models (cx s)) r <> None).
  { intros r Hr. unfold check_pair, agetE in E. destruct (dget (c_models (cx s)) p) as [a|] eqn:Ea; [|discriminate]. destruct (dget (c_models (cx s)) q) as [b|] eqn:Eb; [|discriminate].
    destruct (intersects W _ _); [|injection E as <-; exact Hr]. destruct (resolve W _ p q _ a b) as [[a' b'] out]. cbv zeta in E.
    assert (M : c_models (cx s2) = dset (dset (c_models (cx s)) p a') q b') by (destruct out as [[r0|]|[]]; try discriminate; injection E as <-; reflexivity).
    rewrite M, !dget_dset in Hr. destruct (Nat.eqb_spec q r) as [X|_]; [rewrite <- X, Eb; discriminate|]. destruct (Nat.eqb_spec p r) as [X|_]; [rewrite <- X, Ea; discriminate|exact Hr]. }
  destruct IH. split; apply X; assumption.
Qed.
Lemma combinations2_one (l : list player) p q : NoDup l -> p <> q -> In (p, q) (combinations2 l) -> In (q, p) (combinations2 l) -> False.
Proof.
  intros Nd N H H'. apply combinations2_In in H as (i & j & L & H1 & H2). apply combinations2_In in H' as (i' & j' & L' & H1' & H2').
  assert (i = j') by (apply (proj1 (NoDup_nth_error l) Nd); [apply nth_error_Some; congruence|congruence]).
  assert (j = i') by (apply (proj1 (NoDup_nth_error l) Nd); [apply nth_error_Some; congruence|congruence]). lia.
Qed.

Section Pairs.
Hypothesis Hkeep : stays_in_place (W := W) sc.
Lemma effect_touch p q s s1 : effect [(p, q)] s s1 -> g_scen (c_cfg (cx s)) = sc -> fine s (p, q) -> forall y, touchb s1 y = touchb s y.
Proof.
  intros E Es (a & b & Ea & Eb & _). cbn [fst snd] in *. destruct (e_in _ _ _ E p q a b (or_introl eq_refl) Ea Eb) as [Fa Fb]. rewrite Es in Fa, Fb.
  destruct (resolve W sc p q (time s) a b) as [[a' b'] out] eqn:Er. destruct (Hkeep _ _ _ _ _ _ _ _ Er) as [Ka Kb]. cbn [fst snd] in Fa, Fb.
  assert (X : forall r, option_map (footprint W) (dget (c_models (cx s1)) r) = option_map (footprint W) (dget (c_models (cx s)) r)).
  { intro r. destruct (Nat.eq_dec r p) as [->|Np]; [rewrite Fa, Ea; cbn; congruence|]. destruct (Nat.eq_dec r q) as [->|Nq]; [rewrite Fb, Eb; cbn; congruence|].
    rewrite (e_out _ _ _ E r); [reflexivity|]. intros p0 q0 [[= <- <-]|[]]. auto. }
  intros [u v]. unfold touchb. cbn [fst snd]. pose proof (X u) as Xu. pose proof (X v) as Xv.
  destruct (dget (c_models (cx s1)) u) as [x|], (dget (c_models (cx s)) u) as [x'|]; try discriminate; [|reflexivity].
  destruct (dget (c_models (cx s1)) v) as [y|], (dget (c_models (cx s)) v) as [y'|]; try discriminate; [|reflexivity]. cbn in Xu, Xv. congruence.
Qed.
Lemma fold_events l : forall s s1, rfold check_pair s l = Ok s1 -> (forall p q, In (p, q) l -> p <> q) -> g_scen (c_cfg (cx s)) = sc ->
  (time s1 = time s /\ forall y, touchb s1 y = touchb s y) /\ forall p q, In (p, q) l -> touchb s (p, q) = true -> exists out, In (EPair p q (time s) out) (ev s1).
Proof.
  induction l as [|[p q] l IH]; cbn [rfold]; intros s s1 H N Es; [injection H as <-; split; [auto|intros p q []]|].
  destruct (check_pair s (p, q)) as [s2|] eqn:E; [|discriminate].
  assert (N' : forall p q, In (p, q) l -> p <> q) by (intros; apply N; right; assumption).
  destruct (pair_split _ _ _ _ E (N p q (or_introl eq_refl))) as [[T ->]|(T & Fi & Ef & out & Io)].
  - destruct (IH _ _ H N' Es) as [A B]. split; [exact A|]. intros u v [[= <- <-]|I1] T1; [congruence|auto].
  - destruct (effect_scen _ _ _ Ef) as [Ec Et]. destruct (IH _ _ H N') as [[A1 A2] B]; [congruence|]. pose proof (effect_touch _ _ _ _ Ef Es Fi) as Tt.
    split; [split; [congruence|intro y; rewrite A2, Tt; reflexivity]|]. intros u v [[= <- <-]|I1] T1.
    + exists out. apply (fold_incl _ _ pair_incl) in H. apply H. exact Io.
    + rewrite <- Et. apply B; [exact I1|]. rewrite Tt. exact T1.
Qed.
Lemma effect_cons p q T s s2 s1 : effect [(p, q)] s s2 -> effect T s2 s1 -> (forall u v, In (u, v) T -> u <> p /\ u <> q /\ v <> p /\ v <> q) -> effect ((p, q) :: T) s s1.
Proof.
  intros E1 E2 D. destruct (effect_scen _ _ _ E1) as [Ec Et].
  assert (Sm : forall u v, In (u, v) T -> dget (c_models (cx s2)) u = dget (c_models (cx s)) u /\ dget (c_models (cx s2)) v = dget (c_models (cx s)) v).
  { intros u v Hu. destruct (D u v Hu) as (D1 & D2 & D3 & D4). split; apply (e_out _ _ _ E1); intros p0 q0 [[= <- <-]|[]]; auto. }
  assert (Rp : flat_map (reps s2) T = flat_map (reps s) T).
  { clear E2 D. revert Sm. induction T as [|[u v] T IH]; intro Sm; [reflexivity|]. cbn [flat_map]. rewrite IH by (intros; apply Sm; right; assumption). f_equal.
    unfold reps. cbn [fst snd]. destruct (Sm u v (or_introl eq_refl)) as [-> ->]. rewrite Ec, Et. reflexivity. }
  constructor.
  - rewrite (e_cx _ _ _ E2) at 1. rewrite (e_cx _ _ _ E1). reflexivity.
  - rewrite (e_sm _ _ _ E2). apply (e_sm _ _ _ E1).
  - intros u v a b [[= <- <-]|I1] Ea Eb.
    + destruct (e_in _ _ _ E1 p q a b (or_introl eq_refl) Ea Eb) as [<- <-].
      split; apply (e_out _ _ _ E2); intros u v Hu; destruct (D u v Hu) as (? & ? & ? & ?); auto.
    + rewrite <- Ec, <- Et. destruct (Sm u v I1) as [<- Sv] in Ea. rewrite <- Sv in Eb. apply (e_in _ _ _ E2); assumption.
  - intros r Hr. rewrite (e_out _ _ _ E2) by (intros; apply Hr; right; assumption). apply (e_out _ _ _ E1). intros p0 q0 [[= <- <-]|[]]. apply Hr. left. reflexivity.
  - rewrite (e_reps _ _ _ E2), (e_reps _ _ _ E1), Rp. cbn [flat_map]. rewrite app_nil_r, app_assoc. reflexivity.
  - rewrite (e_first _ _ _ E2), (e_first _ _ _ E1), Rp. cbn [flat_map]. rewrite app_nil_r. unfold firstr. rewrite fold_left_app. reflexivity.
Qed.
Lemma disj_tail p q T : ~ In (p, q) T -> disjoint_pairs ((p, q) :: T) -> forall u v, In (u, v) T -> u <> p /\ u <> q /\ v <> p /\ v <> q.
Proof.
  intros N D u v I1. assert (X : ~ (u = p \/ u = q \/ v = p \/ v = q)); [|tauto]. intro X.
  destruct (D p q u v (or_introl eq_refl) (or_intror I1) X) as [-> ->]. contradiction.
Qed.
Lemma fold_left_effect l : forall s s1, rfold check_pair s l = Ok s1 -> (forall p q, In (p, q) l -> p <> q) -> NoDup l -> g_scen (c_cfg (cx s)) = sc -> disjoint_pairs (filter (touchb s) l) ->
  effect (filter (touchb s) l) s s1 /\ forall x, In x (filter (touchb s) l) -> fine s x.
Proof.
  induction l as [|[p q] l IH]; cbn [rfold]; intros s s1 H N Nd Es D; [injection H as <-; split; [apply effect_nil|intros x []]|].
  destruct (check_pair s (p, q)) as [s2|] eqn:E; [|discriminate]. apply NoDup_cons_iff in Nd as [N1 N2]. cbn [filter] in *.
  assert (N' : forall p q, In (p, q) l -> p <> q) by (intros; apply N; right; assumption).
  destruct (pair_split _ _ _ _ E (N p q (or_introl eq_refl))) as [[T ->]|(T & Fi & Ef & _)]; rewrite T in *; [apply IH; auto|].
  destruct (effect_scen _ _ _ Ef) as [Ec Et]. pose proof (effect_touch _ _ _ _ Ef Es Fi) as Tt.
  rewrite <- (filter_ext _ _ Tt l) in *.
  assert (Dt := disj_tail p q _ (fun X => N1 (proj1 (proj1 (filter_In _ _ _) X))) D).
  destruct (IH s2 s1 H N' N2) as [A B]; [congruence| |].
  { intros u v u' v' H1 H2. apply D; right; assumption. }
  split; [eapply effect_cons; eassumption|]. intros x [<-|Hx]; [exact Fi|]. destruct x as [u v]. destruct (B _ Hx) as (a & b & B1 & B2 & B3). cbn [fst snd] in *. rewrite Ec, Et in B3.
  destruct (Dt u v Hx) as (D1 & D2 & D3 & D4). exists a, b. cbn [fst snd].
  rewrite (e_out _ _ _ Ef) in B1 by (intros p0 q0 [[= <- <-]|[]]; auto). rewrite (e_out _ _ _ Ef) in B2 by (intros p0 q0 [[= <- <-]|[]]; auto). auto.
Qed.
Lemma fold_right_effect l : forall s, (forall p q, In (p, q) l -> p <> q /\ dget (c_models (cx s)) p <> None /\ dget (c_models (cx s)) q <> None) -> NoDup l -> g_scen (c_cfg (cx s)) = sc -> disjoint_pairs (filter (touchb s) l) ->
  (forall x, In x (filter (touchb s) l) -> fine s x) -> exists s1, rfold check_pair s l = Ok s1.
Proof.
  induction l as [|[p q] l IH]; cbn [rfold]; intros s N Nd Es D Fi; [eauto|]. apply NoDup_cons_iff in Nd as [N1 N2]. cbn [filter] in *.
  destruct (N p q (or_introl eq_refl)) as (Npq & Hp & Hq). destruct (touchb s (p, q)) eqn:T.
  - destruct (pair_do s p q T (Fi _ (or_introl eq_refl)) Npq) as (s2 & out & -> & Ef & _). destruct (effect_scen _ _ _ Ef) as [Ec Et].
    pose proof (effect_touch _ _ _ _ Ef Es (Fi _ (or_introl eq_refl))) as Tt. rewrite <- (filter_ext _ _ Tt l) in *.
    assert (Dt := disj_tail p q _ (fun X => N1 (proj1 (proj1 (filter_In _ _ _) X))) D).
    assert (Pres : forall r, dget (c_models (cx s)) r <> None -> dget (c_models (cx s2)) r <> None).
    { intros r Hr. destruct (Fi _ (or_introl eq_refl)) as (a & b & Ea & Eb & _). cbn [fst snd] in *. destruct (e_in _ _ _ Ef p q a b (or_introl eq_refl) Ea Eb) as [F1 F2].
      destruct (Nat.eq_dec r p) as [->|Np]; [rewrite F1; discriminate|]. destruct (Nat.eq_dec r q) as [->|Nq]; [rewrite F2; discriminate|].
      rewrite (e_out _ _ _ Ef r); [exact Hr|]. intros p0 q0 [[= <- <-]|[]]. auto. }
    apply IH; auto.
    + intros u v Hu. destruct (N u v (or_intror Hu)) as (? & ? & ?). auto.
    + congruence.
    + intros u v u' v' H1 H2. apply D; right; assumption.
    + intros [u v] Hx. destruct (Fi _ (or_intror Hx)) as (a & b & B1 & B2 & B3). cbn [fst snd] in *. destruct (Dt u v Hx) as (D1 & D2 & D3 & D4). exists a, b. cbn [fst snd].
      rewrite Ec, Et, !(e_out _ _ _ Ef) by (intros p0 q0 [[= <- <-]|[]]; auto). auto.
  - rewrite (pair_skip s (p, q) T Hp Hq). apply IH; auto. intros; apply N; right; assumption.
Qed.
End Pairs.

(** ** The whole state *)
Record alike (C : player -> Prop) (O : Prop) s z : Prop := mkAlike {
  al_near : forall q, K q -> nearby (C q) O q s z;
  al_sh : shared O s z;
  al_miss : Permutation (g_missions (c_cfg (cx s))) (g_missions (c_cfg (cx z)));
  al_nd : NoDup (akeys (g_missions (c_cfg (cx s))));
  al_goal : forall q, In q (akeys (g_missions (c_cfg (cx s)))) -> K q;
  al_reports : same_reports other (c_reports (cx s)) (c_reports (cx z));
  al_first : c_first (cx z) = c_first (cx s);
  al_term : c_term (cx z) = c_term (cx s)
}.
Lemma al_mem C O s z q : alike C O s z -> (active s q <-> active z q).
Proof.
  intro A. unfold active. split; intro H.
  - pose proof (n_mem _ _ _ _ _ (al_near _ _ _ _ A q (sh_act _ _ _ (al_sh _ _ _ _ A) q H))) as M. apply dmem_spec. rewrite M. apply dmem_spec. exact H.
  - pose proof (n_mem _ _ _ _ _ (al_near _ _ _ _ A q (sh_act' _ _ _ (al_sh _ _ _ _ A) q H))) as M. apply dmem_spec. rewrite <- M. apply dmem_spec. exact H.
Qed.
Lemma al_keys C O s z : alike C O s z -> Permutation (akeys (c_players (cx s))) (akeys (c_players (cx z))).
Proof. intro A. apply NoDup_Permutation; [apply (al_sh _ _ _ _ A)|apply (al_sh _ _ _ _ A)|]. intro q. apply (al_mem _ _ _ _ q A). Qed.

Lemma same_refl l : same_reports other l l.
Proof. exists l. split; [|apply Permutation_refl]. induction l; auto. Qed.
Lemma same_app2 l l' rs rs' : same_reports other l l' -> same_reports other rs rs' -> same_reports other (l ++ rs) (l' ++ rs').
Proof. intros (k & F & P) (k' & F' & P'). exists (k ++ k'). split; [apply Forall2_app; assumption|apply Permutation_app; assumption]. Qed.
Lemma same_app l l' rs rs' : same_reports other l l' -> Permutation rs rs' -> same_reports other (l ++ rs) (l' ++ rs').
Proof. intros H P. apply same_app2; [exact H|]. exists rs. split; [|exact P]. clear. induction rs; auto. Qed.

(** A loop preserves it. *)
Lemma fold_alike {B} (k : B -> player) (f : st W -> B -> result (st W)) (C1 C2 : player -> Prop) (O : Prop) (P : st W -> Prop) (L : B -> Prop) l l' s z s1 :
  (forall x s s1, f s x = Ok s1 -> incl (ev s) (ev s1)) -> (forall x s s1, f s x = Ok s1 -> off (k x) s s1) -> (forall x s s1, f s x = Ok s1 -> exists rs, adds rs s s1) ->
  (forall p s s1, P s -> off p s s1 -> P s1) ->
  (forall x s z s1, L x -> nearby (C1 (k x)) O (k x) s z -> P s -> f s x = Ok s1 -> clean (ev s1) -> exists z1 rs, f z x = Ok z1 /\ nearby (C2 (k x)) O (k x) s1 z1 /\ adds rs s s1 /\ adds rs z z1) ->
  alike C1 O s z -> (forall x, In x l -> K (k x)) -> (forall x, In x l -> L x) -> (forall q, ~ In q (map k l) -> C2 q -> C1 q) -> P s -> NoDup (map k l) -> Permutation l l' ->
  rfold f s l = Ok s1 -> clean (ev s1) -> exists z1, rfold f z l' = Ok z1 /\ alike C2 O s1 z1.
Proof.
  intros Hi Hoff Hadds HP Hloc A Hk HL Hc Ps N Pm H Cl.
  destruct (fold_near k f C1 C2 O P L Hi Hoff Hadds HP Hloc l l' s z s1 (al_near _ _ _ _ A) Hk HL Hc Ps N Pm H Cl) as (z1 & rs & rs' & Z1 & Ad & Ad' & Pr & Nr).
  exists z1. split; [exact Z1|].
  assert (F : forall l s s1, rfold f s l = Ok s1 -> c_cfg (cx s1) = c_cfg (cx s) /\ s_last (sm s1) = s_last (sm s) /\ s_obs (sm s1) = s_obs (sm s) /\ (NoDup (akeys (c_players (cx s))) -> NoDup (akeys (c_players (cx s1)))) /\ forall q, active s1 q -> active s q).
  { clear - Hoff. induction l as [|x l IH]; cbn [rfold]; intros s s1 H; [injection H as <-; auto|]. destruct (f s x) as [s2|] eqn:E; [|discriminate]. apply Hoff in E as []. destruct (IH _ _ H) as (? & ? & ? & ? & ?).
    split; [congruence|]. split; [congruence|]. split; [congruence|]. auto. }
  destruct (F _ _ _ H) as (F1 & F2 & F3 & F4 & F5), (F _ _ _ Z1) as (G1 & G2 & G3 & G4 & G5). destruct Ad, Ad'. unfold time in *.
  destruct A as [_ [] A3 A4 A5 A6 A7 A8]. constructor; rewrite ?F1, ?G1; auto.
  - constructor; rewrite ?F1, ?G1, ?F2, ?F3, ?G2, ?G3; auto; congruence.
  - rewrite ad_reports0, ad_reports1. apply same_app; assumption.
  - rewrite ad_first0, ad_first1, A7, sh_time0. destruct rs as [|r rs]; [apply Permutation_nil in Pr; subst rs'; reflexivity|]. destruct rs' as [|r' rs']; [apply Permutation_sym, Permutation_nil in Pr; discriminate|]. reflexivity.
  - congruence.
Qed.

Lemma forallb_perm {B} (f : B -> bool) l l' : Permutation l l' -> forallb f l' = forallb f l.
Proof. induction 1; cbn; try congruence. destruct (f x), (f y); reflexivity. Qed.
Lemma term_alike C O s z : alike C O s z -> termination (cx z) = termination (cx s).
Proof.
  intro A. pose proof (al_sh _ _ _ _ A) as []. unfold termination. rewrite sh_param0, sh_time0, (al_first _ _ _ _ A).
  assert (E : match c_players (cx z) with [] => true | _ => false end = match c_players (cx s) with [] => true | _ => false end).
  { pose proof (al_keys _ _ _ _ A) as Pk. destruct (c_players (cx s)) as [|[a v] d], (c_players (cx z)) as [|[b w] d']; auto.
    - apply Permutation_nil in Pk. discriminate.
    - apply Permutation_sym, Permutation_nil in Pk. discriminate. }
  rewrite E. match goal with |- (if negb ?x then _ else _) = _ => destruct x; [reflexivity|] end. cbn [negb].
  pose proof (al_miss _ _ _ _ A) as Pm.
  assert (F : forallb (fun pn => negb (dmem (c_players (cx z)) pn)) (akeys (g_missions (c_cfg (cx z)))) = forallb (fun pn => negb (dmem (c_players (cx s)) pn)) (akeys (g_missions (c_cfg (cx s))))).
  { rewrite (forallb_perm _ _ _ (keys_perm _ _ Pm)). assert (G := al_goal _ _ _ _ A). revert G. induction (akeys (g_missions (c_cfg (cx s)))) as [|x l IH]; intro G; [reflexivity|].
    cbn [forallb]. rewrite (n_mem _ _ _ _ _ (al_near _ _ _ _ A x (G x (or_introl eq_refl)))), IH; [reflexivity|]. intros; apply G; right; assumption. }
  destruct (g_missions (c_cfg (cx s))) as [|m ms], (g_missions (c_cfg (cx z))) as [|m' ms']; auto.
  - apply Permutation_nil in Pm. discriminate.
  - apply Permutation_sym, Permutation_nil in Pm. discriminate.
Qed.
Lemma set_term_alike C O s z b : alike C O s z -> alike C O (upd_cx s (set_term (cx s) b)) (upd_cx z (set_term (cx z) b)).
Proof. intros [A1 [] A3 A4 A5 A6 A7 A8]. constructor; auto; [|constructor; auto]. intros q Kq. destruct (A1 q Kq) as [[]]. constructor; auto. constructor; auto. Qed.

Hypothesis Hsym : forall a b, intersects W a b = intersects W b a.
Lemma pair_in {B} (l : list B) x y : In x l -> In y l -> x <> y -> In (x, y) (combinations2 l) \/ In (y, x) (combinations2 l).
Proof.
  induction l as [|z l IH]; cbn [In combinations2]; intros Hx Hy N; [contradiction|]. rewrite !in_app_iff, !in_map_iff.
  destruct Hx as [->|Hx], Hy as [->|Hy]; [congruence|left; left; eauto|right; left; eauto|]. destruct (IH Hx Hy N); auto.
Qed.

Lemma pair_none s p q s1 : check_pair s (p, q) = Ok s1 -> (forall t out, ~ In (EPair p q t out) (ev s1)) ->
  s1 = s /\ exists a b, dget (c_models (cx s)) p = Some a /\ dget (c_models (cx s)) q = Some b /\ intersects W (footprint W a) (footprint W b) = false.
Proof.
  unfold check_pair. intros H N. destruct (dgetE (c_models (cx s)) p) as [a|] eqn:Ea; [|discriminate]. destruct (dgetE (c_models (cx s)) q) as [b|] eqn:Eb; [|discriminate].
  apply agetE_Ok in Ea, Eb. destruct (intersects W (footprint W a) (footprint W b)) eqn:E; [|injection H as <-; eauto 10].
  exfalso. destruct (resolve W _ p q (time s) a b) as [[a' b'] out]. cbv zeta in H. apply (N (time s) out).
  destruct out as [[r|]|e]; try (destruct e; try discriminate); injection H as <-; cbn; left; reflexivity.
Qed.
Lemma pairs_none l : forall s s1, rfold check_pair s l = Ok s1 -> (forall p q t out, ~ In (EPair p q t out) (ev s1)) ->
  s1 = s /\ forall p q, In (p, q) l -> exists a b, dget (c_models (cx s)) p = Some a /\ dget (c_models (cx s)) q = Some b /\ intersects W (footprint W a) (footprint W b) = false.
Proof.
  induction l as [|[p q] l IH]; cbn [rfold]; intros s s1 H N; [injection H as <-; split; [reflexivity|intros p q []]|].
  destruct (check_pair s (p, q)) as [s2|] eqn:E; [|discriminate]. destruct (IH _ _ H N) as [-> X].
  destruct (pair_none _ _ _ _ E) as [-> Y]; [intros; apply N|]. split; [reflexivity|]. intros p' q' [[= <- <-]|I1]; auto.
Qed.
Lemma pairs_skip l s : (forall p q, In (p, q) l -> exists a b, dget (c_models (cx s)) p = Some a /\ dget (c_models (cx s)) q = Some b /\ intersects W (footprint W a) (footprint W b) = false) -> rfold check_pair s l = Ok s.
Proof.
  induction l as [|[p q] l IH]; cbn [rfold]; intro H; [reflexivity|]. destruct (H p q (or_introl eq_refl)) as (a & b & Ea & Eb & E).
  unfold check_pair at 1. unfold agetE. rewrite Ea, Eb, E. apply IH. intros p' q' I1. apply H. right. exact I1.
Qed.
Lemma none_alike C O s z s1 : alike C O s z -> check_players s = Ok s1 -> (forall p q t out, ~ In (EPair p q t out) (ev s1)) -> exists z1, check_players z = Ok z1 /\ alike C O s1 z1.
Proof.
  intros A5 H Cl. unfold check_players in *. destruct (pairs_none _ _ _ H Cl) as [-> Pn]. exists z. split; [|exact A5].
  apply pairs_skip. intros p q Hpq. assert (Np : p <> q) by (eapply combinations2_neq; [apply (sh_nd' _ _ _ (al_sh _ _ _ _ A5))|exact Hpq]).
  apply combinations2_In in Hpq as (i & j & _ & Ip & Iq). apply nth_error_In in Ip, Iq.
  pose proof (proj2 (al_mem _ _ _ _ p A5) Ip) as Ap. pose proof (proj2 (al_mem _ _ _ _ q A5) Iq) as Aq.
  rewrite (n_model _ _ _ _ _ (al_near _ _ _ _ A5 p (sh_act _ _ _ (al_sh _ _ _ _ A5) p Ap))), (n_model _ _ _ _ _ (al_near _ _ _ _ A5 q (sh_act _ _ _ (al_sh _ _ _ _ A5) q Aq))).
  destruct (pair_in _ p q Ap Aq Np) as [X|X]; apply Pn in X as (a & b & Ea & Eb & E); [eauto|]. exists b, a. rewrite Hsym. auto.
Qed.

Section Contacts.
Hypothesis Hkeep : stays_in_place (W := W) sc.
Hypothesis Hfair : resolves_evenly (W := W) sc Gp other.
(** The players that collided in the iteration before were placed like [Gp]. *)
Definition placed s : Prop := forall p q out a b, In (EPair p q (time s) out) (ev s) -> dget (c_models (cx s)) p = Some a -> dget (c_models (cx s)) q = Some b -> Gp (footprint W a) (footprint W b).

Lemma earlier_comm x y f : earlier y (earlier x f) = earlier x (earlier y f).
Proof.
  assert (E : forall a b : Qc, (a < b -> False) -> (b < a -> False) -> a = b) by (intros a b U V; destruct (Qclt_le_dec a b) as [L|L]; [contradiction|]; destruct (Qcle_lt_or_eq _ _ L); [contradiction|congruence]).
  destruct f as [f|]; cbn; repeat (match goal with |- context [qltb ?a ?b] => destruct (qltb_spec a b) end; cbn); try reflexivity; f_equal; try (exfalso; qlra); apply E; intro; qlra.
Qed.
Lemma firstr_times f rs : firstr f rs = fold_left (fun f t => earlier t f) (map r_time rs) f.
Proof. unfold firstr. revert f. induction rs; intro f; cbn; auto. Qed.
Lemma first_perm ts ts' : Permutation ts ts' -> forall f, fold_left (fun f t => earlier t f) ts f = fold_left (fun f t => earlier t f) ts' f.
Proof. induction 1; intro f; cbn; auto; [rewrite earlier_comm; reflexivity|congruence]. Qed.
Lemma forall2_flat {A B} (P : B -> B -> Prop) (f g : A -> list B) l : (forall x, In x l -> Forall2 P (f x) (g x)) -> Forall2 P (flat_map f l) (flat_map g l).
Proof. induction l as [|x l IH]; intro H; cbn; [constructor|]. apply Forall2_app; [apply H; left; reflexivity|apply IH; intros; apply H; right; assumption]. Qed.
Lemma nodup_inj {A B} (f : A -> B) l : (forall x y, In x l -> In y l -> f x = f y -> x = y) -> NoDup l -> NoDup (map f l).
Proof.
  induction l as [|x l IH]; intros H N; cbn; [constructor|]. apply NoDup_cons_iff in N as [N1 N2]. constructor; [|apply IH; [intros; apply H; auto; right; assumption|exact N2]].
  intro X. apply in_map_iff in X as (y & E & I1). apply N1. rewrite <- (H y x); auto; [right; exact I1|left; reflexivity].
Qed.
Lemma pair_dec : forall x y : player * player, {x = y} + {x <> y}.
Proof. decide equality; apply Nat.eq_dec. Qed.

Lemma pairs_alike C O s z s1 : alike C O s z -> check_players s = Ok s1 -> clean (ev s1) -> placed s1 -> exists z1, check_players z = Ok z1 /\ alike C O s1 z1.
Proof.
  intros A H Cl Pl. unfold check_players in *. pose proof (al_sh _ _ _ _ A) as Sh.
  set (l := combinations2 (akeys (c_players (cx s)))) in *. set (l' := combinations2 (akeys (c_players (cx z)))).
  assert (Nl : NoDup l) by (apply combinations2_NoDup, Sh). assert (Nl' : NoDup l') by (apply combinations2_NoDup, Sh).
  assert (Np : forall p q, In (p, q) l -> p <> q) by (apply combinations2_neq, Sh). assert (Np' : forall p q, In (p, q) l' -> p <> q) by (apply combinations2_neq, Sh).
  assert (Il : forall p q, In (p, q) l -> active s p /\ active s q) by (intros p q X; apply combinations2_In in X as (i & j & _ & X1 & X2); apply nth_error_In in X1, X2; auto).
  assert (Il' : forall p q, In (p, q) l' -> active z p /\ active z q) by (intros p q X; apply combinations2_In in X as (i & j & _ & X1 & X2); apply nth_error_In in X1, X2; auto).
  assert (Md : forall r, active s r -> dget (c_models (cx z)) r = dget (c_models (cx s)) r) by (intros r Hr; apply (n_model _ _ _ _ _ (al_near _ _ _ _ A r (sh_act _ _ _ Sh r Hr)))).
  assert (Tz : time z = time s) by apply (sh_time _ _ _ Sh).
  pose proof (sh_scen _ _ _ Sh) as Es. pose proof (sh_scen' _ _ _ Sh) as Ez.
  destruct (fold_events Hkeep l s s1 H Np Es) as [[Ft Ftt] Fe].
  assert (Ts : forall p q, touchb s (q, p) = touchb s (p, q)).
  { intros p q. unfold touchb. cbn [fst snd]. destruct (dget (c_models (cx s)) p), (dget (c_models (cx s)) q); auto. }
  assert (Tt : forall p q, active s p -> active s q -> touchb z (p, q) = touchb s (p, q)) by (intros p q Hp Hq; unfold touchb; cbn [fst snd]; rewrite !Md by assumption; reflexivity).
  set (T := filter (touchb s) l). set (T' := filter (touchb z) l').
  assert (D : disjoint_pairs T).
  { intros p q p' q' X Y Sx. apply filter_In in X as [X X1], Y as [Y Y1]. destruct (Fe _ _ X X1) as (o1 & O1). destruct (Fe _ _ Y Y1) as (o2 & O2). eapply (proj1 Cl); eassumption. }
  destruct (fold_left_effect Hkeep l s s1 H Np Nl Es D) as [Ef Fi]. fold T in Ef, Fi.
  assert (Back : forall p q, In (p, q) T' -> In (p, q) T \/ In (q, p) T).
  { intros p q X. apply filter_In in X as [X X1]. destruct (Il' _ _ X) as [Ap Aq]. apply (al_mem _ _ _ _ p A) in Ap. apply (al_mem _ _ _ _ q A) in Aq. rewrite Tt in X1 by assumption.
    destruct (pair_in _ p q Ap Aq (Np' _ _ X)) as [Y|Y]; [left|right]; apply filter_In; split; auto. rewrite Ts. exact X1. }
  assert (Fwd : forall p q, In (p, q) T -> In (p, q) T' \/ In (q, p) T').
  { intros p q X. apply filter_In in X as [X X1]. destruct (Il _ _ X) as [Ap Aq]. pose proof (proj1 (al_mem _ _ _ _ p A) Ap) as Ap'. pose proof (proj1 (al_mem _ _ _ _ q A) Aq) as Aq'.
    destruct (pair_in _ p q Ap' Aq' (Np _ _ X)) as [Y|Y]; [left|right]; apply filter_In; split; auto; rewrite Tt by assumption; [exact X1|rewrite Ts; exact X1]. }
  assert (At : forall p q, In (p, q) T -> active s p /\ active s q /\ p <> q) by (intros p q X; apply filter_In in X as [X _]; destruct (Il _ _ X); split; auto).
  assert (D' : disjoint_pairs T').
  { intros p q p' q' X Y Sx. pose proof X as X'. pose proof Y as Y'. apply filter_In in X' as [X' _], Y' as [Y' _]. pose proof (Np' _ _ X') as N1. pose proof (Np' _ _ Y') as N2.
    assert (Both : ~ (In (p, q) l' /\ In (q, p) l')) by (intros [U V]; eapply combinations2_one; [| |exact U|exact V]; [apply Sh|exact N1]).
    apply Back in X as [X|X], Y as [Y|Y].
    - destruct (D p q p' q' X Y) as [-> ->]; tauto.
    - destruct (D p q q' p' X Y) as [-> ->]; [tauto|]. exfalso. apply Both. auto.
    - destruct (D q p p' q' X Y) as [-> ->]; [tauto|]. exfalso. apply Both. auto.
    - destruct (D q p q' p' X Y) as [-> ->]; tauto. }
  assert (Fa : forall p q, In (p, q) T -> exists a b a' b' out out', dget (c_models (cx s)) p = Some a /\ dget (c_models (cx s)) q = Some b /\
     resolve W sc p q (time s) a b = ((a', b'), out) /\ resolve W sc q p (time s) b a = ((b', a'), out') /\ same_outcome other p q (time s) out out').
  { intros p q X. destruct (Fi _ X) as (a & b & Ea & Eb & _). cbn [fst snd] in *. destruct (e_in _ _ _ Ef p q a b X Ea Eb) as [Ga Gb]. rewrite Es in Ga, Gb.
    destruct (resolve W sc p q (time s) a b) as [[a' b'] out] eqn:Er. cbn [fst snd] in Ga, Gb. destruct (Hkeep _ _ _ _ _ _ _ _ Er) as [Ka Kb].
    pose proof X as X'. apply filter_In in X' as [X1 X2]. destruct (Fe _ _ X1 X2) as (o1 & O1). rewrite <- Ft in O1. pose proof (Pl p q o1 a' b' O1 Ga Gb) as Pg. rewrite Ka, Kb in Pg.
    destruct (Hfair p q (time s) a b a' b' out (Np _ _ X1) Pg Er) as (out' & Er' & So). exists a, b, a', b', out, out'. auto 10. }
  assert (Fi' : forall x, In x T' -> fine z x).
  { intros [p q] X. unfold fine. cbn [fst snd]. rewrite Ez, Tz. apply Back in X as [X|X].
    - destruct (At _ _ X) as (Ap & Aq & _). destruct (Fi _ X) as (a & b & Ea & Eb & Ho). cbn [fst snd] in *. rewrite Es in Ho. exists a, b. rewrite !Md by assumption. auto.
    - destruct (At _ _ X) as (Ap & Aq & _). destruct (Fa _ _ X) as (a & b & a' & b' & out & out' & Ea & Eb & Er & Er' & So). destruct (Fi _ X) as (a0 & b0 & Ea0 & Eb0 & Ho). cbn [fst snd] in *.
      rewrite Ea in Ea0. rewrite Eb in Eb0. injection Ea0 as <-. injection Eb0 as <-. rewrite Es, Er in Ho. cbn [snd] in Ho. exists b, a. rewrite !Md by assumption. split; [exact Eb|]. split; [exact Ea|].
      rewrite Er'. cbn [snd]. destruct out as [[r|]|[]], out' as [[r'|]|[]]; cbn in *; try contradiction; try discriminate; exact I. }
  destruct (fold_right_effect Hkeep l' z) as (z1 & Hz); auto.
  { intros p q X. split; [apply Np'; exact X|]. destruct (Il' _ _ X) as [Ap Aq]. apply (al_mem _ _ _ _ p A) in Ap. apply (al_mem _ _ _ _ q A) in Aq.
    rewrite !Md by assumption. destruct (pair_in _ p q Ap Aq (Np' _ _ X)) as [Y|Y]; fold l in Y; pose proof (fold_have _ _ _ H _ Y) as [? ?]; auto. }
  exists z1. split; [exact Hz|]. destruct (fold_left_effect Hkeep l' z z1 Hz Np' Nl' Ez D') as [Ef' _]. fold T' in Ef'.
  assert (Mz : forall r, K r -> dget (c_models (cx z1)) r = dget (c_models (cx s1)) r).
  { intros r Kr. destruct (existsb (fun x => Nat.eqb r (fst x) || Nat.eqb r (snd x)) T) eqn:Ex.
    - apply existsb_exists in Ex as ([p q] & X & Rr). cbn [fst snd] in Rr. destruct (At _ _ X) as (Ap & Aq & Npq).
      destruct (Fa _ _ X) as (a & b & a' & b' & out & out' & Ea & Eb & Er & Er' & _). destruct (e_in _ _ _ Ef p q a b X Ea Eb) as [Ga Gb]. rewrite Es, Er in Ga, Gb. cbn [fst snd] in Ga, Gb.
      assert (Gz : dget (c_models (cx z1)) p = Some a' /\ dget (c_models (cx z1)) q = Some b').
      { destruct (Fwd _ _ X) as [Y|Y].
        - destruct (e_in _ _ _ Ef' p q a b Y) as [U V]; [rewrite Md; assumption|rewrite Md; assumption|]. rewrite Ez, Tz, Er in U, V. auto.
        - destruct (e_in _ _ _ Ef' q p b a Y) as [U V]; [rewrite Md; assumption|rewrite Md; assumption|]. rewrite Ez, Tz, Er' in U, V. auto. }
      destruct Gz as [G1 G2]. apply orb_true_iff in Rr as [Rr|Rr]; apply Nat.eqb_eq in Rr; subst r; congruence.
    - assert (Nx : forall p q, In (p, q) T -> r <> p /\ r <> q).
      { intros p q X. split; intro E; (assert (Y : existsb (fun x => Nat.eqb r (fst x) || Nat.eqb r (snd x)) T = true); [|congruence]); apply existsb_exists; exists (p, q); (split; [exact X|]); cbn [fst snd]; rewrite <- E, Nat.eqb_refl, ?orb_true_r; reflexivity. }
      rewrite (e_out _ _ _ Ef r Nx), (e_out _ _ _ Ef' r); [apply (n_model _ _ _ _ _ (al_near _ _ _ _ A r Kr))|].
      intros p q X. apply Back in X as [X|X]; apply Nx in X; tauto. }
  pose (orient := fun x : player * player => if in_dec pair_dec x T' then x else (snd x, fst x)).
  assert (Po : Permutation (map orient T) T').
  { apply NoDup_Permutation.
    - apply nodup_inj; [|apply NoDup_filter; exact Nl]. intros [p q] [p' q'] X Y E. assert (Sx : p' = p \/ p' = q \/ q' = p \/ q' = q).
      { unfold orient in E. destruct (in_dec pair_dec (p, q) T'), (in_dec pair_dec (p', q') T'); cbn [fst snd] in E; injection E; auto. }
      destruct (D p q p' q' X Y Sx) as [-> ->]. reflexivity.
    - apply NoDup_filter. exact Nl'.
    - intros [p q]. rewrite in_map_iff. split.
      + intros ([u v] & E & X). unfold orient in E. destruct (in_dec pair_dec (u, v) T') as [Y|Y]; [injection E as <- <-; exact Y|]. cbn [fst snd] in E. injection E as <- <-. destruct (Fwd _ _ X); [contradiction|assumption].
      + intro X. pose proof X as X'. apply Back in X' as [Y|Y].
        * exists (p, q). split; [|exact Y]. unfold orient. destruct (in_dec pair_dec (p, q) T'); [reflexivity|contradiction].
        * exists (q, p). split; [|exact Y]. unfold orient. destruct (in_dec pair_dec (q, p) T') as [Z|Z]; [|reflexivity]. exfalso.
          apply filter_In in X as [X _], Z as [Z _]. eapply combinations2_one; [| |exact X|exact Z]; [apply Sh|apply Np'; exact X]. }
  assert (Fr : Forall2 (fun r r' => (r' = r \/ other r r') /\ r_time r' = r_time r) (flat_map (reps s) T) (flat_map (reps z) (map orient T))).
  { assert (E : flat_map (reps z) (map orient T) = flat_map (fun x => reps z (orient x)) T) by (clear; induction T as [|x T IH]; cbn; [reflexivity|rewrite IH; reflexivity]). rewrite E.
    apply forall2_flat. intros [p q] X. destruct (At _ _ X) as (Ap & Aq & _). destruct (Fa _ _ X) as (a & b & a' & b' & out & out' & Ea & Eb & Er & Er' & So).
    unfold orient. destruct (in_dec pair_dec (p, q) T'); unfold reps; cbn [fst snd]; rewrite !Md, Ea, Eb, Es, Ez, Tz, Er by assumption; cbn [snd].
    - destruct out as [[r|]|[]]; constructor; auto.
    - rewrite Er'. cbn [snd]. destruct out as [[r|]|[]], out' as [[r'|]|[]]; cbn in So; try contradiction; try discriminate; constructor; auto; tauto. }
  pose proof (Permutation_flat_map (reps z) Po) as Pf.
  destruct A as [A1 [] A3 A4 A5 A6 A7 A8]. pose proof (e_cx _ _ _ Ef) as Cs. pose proof (e_cx _ _ _ Ef') as Cz. pose proof (e_sm _ _ _ Ef) as Ss. pose proof (e_sm _ _ _ Ef') as Sz.
  assert (Xs : c_cfg (cx s1) = c_cfg (cx s) /\ c_time (cx s1) = c_time (cx s) /\ c_players (cx s1) = c_players (cx s) /\ c_sensors (cx s1) = c_sensors (cx s) /\ c_term (cx s1) = c_term (cx s)) by (rewrite Cs; auto).
  assert (Xz : c_cfg (cx z1) = c_cfg (cx z) /\ c_time (cx z1) = c_time (cx z) /\ c_players (cx z1) = c_players (cx z) /\ c_sensors (cx z1) = c_sensors (cx z) /\ c_term (cx z1) = c_term (cx z)) by (rewrite Cz; auto).
  clear Cs Cz. destruct Xs as (X1 & X2 & X3 & X4 & X5), Xz as (Y1 & Y2 & Y3 & Y4 & Y5).
  assert (Sh1 : shared O s1 z1). { constructor; unfold active; rewrite ?X1, ?X2, ?X3, ?Y1, ?Y2, ?Y3, ?Ss, ?Sz; auto. }
  constructor; rewrite ?X1, ?X5, ?Y1, ?Y5; auto.
  - intros q Kq. destruct (A1 q Kq) as [_ B2 B3 B4 B5 B6 B7]. constructor; auto.
    + rewrite Ss, Sz. exact B4.
    + unfold logger_of in *. rewrite Ss, Sz. exact B5.
    + rewrite X3, Y3. exact B6.
    + unfold bis, get_sensor in *. rewrite X1, X3, X4, Y1, Y3, Y4. exact B7.
  - rewrite (e_reps _ _ _ Ef), (e_reps _ _ _ Ef'). apply same_app2; [exact A6|]. exists (flat_map (reps z) (map orient T)). split; [|exact Pf].
    clear - Fr. induction Fr as [|? ? ? ? [? _]]; constructor; auto.
  - rewrite (e_first _ _ _ Ef), (e_first _ _ _ Ef'), A7, !firstr_times. apply first_perm.
    assert (E : map r_time (flat_map (reps z) (map orient T)) = map r_time (flat_map (reps s) T)) by (clear - Fr; induction Fr as [|? ? ? ? [_ ?]]; cbn; congruence).
    rewrite <- E. apply Permutation_map, Permutation_sym. exact Pf.
Qed.

End Contacts.

Section Rest.
Context (Pl : st W -> Prop).
Hypothesis Hpairs : forall C O s z s1, alike C O s z -> check_players s = Ok s1 -> clean (ev s1) -> Pl s1 -> exists z1, check_players z = Ok z1 /\ alike C O s1 z1.

Lemma post_alike C O s z s1 : alike C O s z -> post_update s = Ok s1 -> clean (ev s1) -> Pl s1 -> exists z1, post_update z = Ok z1 /\ alike C O s1 z1.
Proof.
  intros A H Cl Ps. unfold post_update in *. cbv zeta in *.
  set (s2 := upd_cx s (set_time (cx s) (time s + dt (param s)))) in *. set (z2 := upd_cx z (set_time (cx z) (time z + dt (param z)))).
  assert (A2 : alike C O s2 z2).
  { assert (T : c_time (cx z2) = c_time (cx s2)). { cbn. unfold time, param. rewrite (sh_time _ _ _ (al_sh _ _ _ _ A)), (sh_param _ _ _ (al_sh _ _ _ _ A)). reflexivity. }
    destruct A as [A1 [] A3 A4 A5 A6 A7 A8]. constructor; auto; [|constructor; auto]. intros q Kq. destruct (A1 q Kq) as [[]]. constructor; auto. constructor; auto. }
  destruct (remove_finished s2) as [s3|] eqn:E3; [|discriminate].
  assert (P3 : clean (ev s3)).
  { eapply clean_incl; [|exact Cl]. destruct (c_term (cx (maybe_terminate s3))); [injection H as <-; apply incl_refl|].
    destruct (check_env (maybe_terminate s3)) as [s4|] eqn:E4; [|discriminate]. eapply incl_tran; [|apply (fold_incl _ _ pair_incl) in H; exact H].
    unfold check_env in E4. apply fold_incl in E4; [exact E4|]. intros p a b Hab. eapply env_incl. exact Hab. }
  unfold remove_finished in *.
  destruct (fold_alike fst remove_finished1 C C O (fun _ => True) (fun _ => True) (g_missions (c_cfg (cx s2))) (g_missions (c_cfg (cx z2))) s2 z2 s3) as (z3 & W3 & A3); auto.
  { intros; eapply remove_incl; eassumption. } { apply off_remove. } { intros x a b Hab. exists []. eapply adds_remove. exact Hab. }
  { intros x a b d _ Hab _ Hd _. destruct (remove_near _ _ _ _ _ _ Hab Hd) as (z1 & E & N). exists z1, []. split; [exact E|]. split; [exact N|]. split; eapply adds_remove; eassumption. }
  { intros x Hx. apply (al_goal _ _ _ _ A2). apply in_map. exact Hx. } { apply (al_nd _ _ _ _ A2). } { apply (al_miss _ _ _ _ A2). }
  rewrite W3. unfold maybe_terminate in *. rewrite (term_alike _ _ _ _ A3). pose proof (set_term_alike _ _ _ _ (termination (cx s3)) A3) as A4.
  set (s4 := upd_cx s3 (set_term (cx s3) (termination (cx s3)))) in *. set (z4 := upd_cx z3 (set_term (cx z3) (termination (cx s3)))) in *.
  rewrite (al_term _ _ _ _ A4). destruct (c_term (cx s4)) eqn:Es; [injection H as <-; eauto|].
  destruct (check_env s4) as [s5|] eqn:E5; [|discriminate]. unfold check_env in *.
  assert (P5 : clean (ev s5)) by (eapply clean_incl; [apply (fold_incl _ _ pair_incl) in H; exact H|exact Cl]).
  destruct (fold_alike (fun p => p) check_env_player C C O (fun _ => True) (fun _ => True) (akeys (c_players (cx s4))) (akeys (c_players (cx z4))) s4 z4 s5) as (z5 & W5 & A5); auto.
  { intros; eapply env_incl; eassumption. } { intros; eapply env_off; eassumption. } { intros x a b Hab. eapply env_off. exact Hab. }
  { intros x a b d _ Hab _ Hd _. eapply env_near; eassumption. }
  { intros x Hx. apply (sh_act _ _ _ (al_sh _ _ _ _ A4)). exact Hx. } { rewrite map_id. apply (al_sh _ _ _ _ A4). } { apply (al_keys _ _ _ _ A4). }
  rewrite W5. eapply Hpairs; eassumption.
Qed.

Lemma observe_perm (ms ms' : list (player * w_M W)) l l' : Permutation l l' -> (forall q, In q l -> dget ms' q = dget ms q) -> forall obs, rmapM (observe ms) l = Ok obs -> exists obs', rmapM (observe ms') l' = Ok obs' /\ Permutation obs obs'.
Proof.
  intros Pm M obs H.
  assert (E : rmapM (observe ms') l = Ok obs).
  { rewrite <- H. clear - M. induction l as [|q l IH]; [reflexivity|]. cbn [rmapM]. rewrite IH by (intros; apply M; right; assumption). unfold observe, agetE. rewrite M by (left; reflexivity). reflexivity. }
  clear H M. revert obs E. induction Pm as [|q l l' Pm IH|q q' l|l l' l'' Pm IH Pm' IH']; intros obs E.
  - exists obs. auto.
  - cbn [rmapM] in *. destruct (observe ms' q) as [y|]; [|discriminate]. destruct (rmapM (observe ms') l) as [r|]; [|discriminate]. injection E as <-. destruct (IH _ eq_refl) as (r' & -> & Pr). eexists. split; [reflexivity|]. constructor. exact Pr.
  - cbn [rmapM] in *. destruct (observe ms' q) as [y|]; [|destruct (observe ms' q'); discriminate]. destruct (observe ms' q') as [y'|]; [|discriminate]. destruct (rmapM (observe ms') l) as [r|]; [|discriminate]. injection E as <-. eexists. split; [reflexivity|]. constructor.
  - destruct (IH _ E) as (r & E1 & P1). destruct (IH' _ E1) as (r' & E2 & P2). exists r'. split; [exact E2|]. eapply Permutation_trans; eassumption.
Qed.

Lemma step_alike C s z s1 : alike C False s z -> (need_commands s = false -> forall p, active s p -> C p) -> step s = Ok s1 -> clean (ev s1) -> Pl s1 ->
  exists z1, step z = Ok z1 /\ alike (fun q => C q \/ active s q) False s1 z1.
Proof.
  intros A Hc H Cl Ps. unfold step in *. destruct (pre_update s) as [s2|] eqn:E2; [|discriminate].
  destruct (update s2) as [s3|] eqn:E3; [|discriminate].
  assert (P3 : clean (ev s3)) by (eapply clean_incl; [apply post_incl; exact H|exact Cl]).
  assert (X : exists z2, pre_update z = Ok z2 /\ alike C (need_commands s = true) s2 z2).
  { unfold pre_update in *. rewrite (need_shared _ _ _ (al_sh _ _ _ _ A)). destruct (need_commands s) eqn:Nd.
    - destruct (rmapM (observe (c_models (cx s))) (akeys (c_players (cx s)))) as [obs|] eqn:Eo; [|discriminate]. injection E2 as <-.
      destruct (observe_perm (c_models (cx s)) (c_models (cx z)) _ _ (al_keys _ _ _ _ A)) with (obs := obs) as (obs' & Eo' & Po); [|exact Eo|].
      { intros q Hq. apply (n_model _ _ _ _ _ (al_near _ _ _ _ A q (sh_act _ _ _ (al_sh _ _ _ _ A) q Hq))). }
      rewrite Eo'. eexists. split; [reflexivity|].
      assert (So : same_obs (mkObs obs (time s)) (mkObs obs' (time z))) by (split; [apply (sh_time _ _ _ (al_sh _ _ _ _ A))|exact Po]).
      destruct A as [A1 [] A3 A4 A5 A6 A7 A8]. constructor; auto; [|constructor; auto]. intros q Kq. destruct (A1 q Kq) as [[]]. constructor; auto. constructor; auto.
    - injection E2 as <-. eexists. split; [reflexivity|].
      destruct A as [A1 [] A3 A4 A5 A6 A7 A8]. constructor; auto; [|constructor; auto; discriminate]. intros q Kq. eapply near_mono; [apply A1, Kq|auto|discriminate]. }
  destruct X as (z2 & W2 & A2). rewrite W2.
  apply pre_update_ok in E2 as (Q1 & _ & Q3 & _).
  assert (Nd2 : need_commands s2 = need_commands s) by (unfold need_commands, time, param; rewrite Q3, Q1; reflexivity).
  unfold update in *. cbv zeta in *. destruct (rfold (update_player (time s2)) s2 (akeys (c_players (cx s2)))) as [s2'|] eqn:E4; [|discriminate].
  assert (P4 : clean (ev s2')) by (destruct (need_commands s2'); injection E3 as <-; exact P3).
  destruct (fold_alike (fun p => p) (update_player (time s2)) C (fun q => C q \/ active s2 q) (need_commands s = true) (fun x => need_commands x = need_commands s) (fun p => active s2 p) (akeys (c_players (cx s2))) (akeys (c_players (cx z2))) s2 z2 s2') as (z2' & Z2 & A3); auto.
  { intros; eapply player_incl; eassumption. } { intros; eapply off_player; eassumption. } { intros x a b Hab. exists []. eapply adds_player. exact Hab. }
  { intros p a b Hp F. rewrite (need_off _ _ _ F). exact Hp. }
  { intros x a b d Lx Hab Hp Hd Cd. destruct (player_near _ _ (time s2) _ _ _ d Hab) as (z1 & Z1 & Nz); auto.
    - rewrite Hp. auto.
    - rewrite Hp. intro Nf. apply Hc; [exact Nf|]. unfold active in *. rewrite <- Q1. exact Lx.
    - exists z1, []. split; [exact Z1|]. split; [eapply near_mono; [exact Nz| |]; auto|]. split; eapply adds_player; eassumption. }
  { intros x Hx. apply (sh_act _ _ _ (al_sh _ _ _ _ A2)). exact Hx. }
  { intros q Nq [Hq|Hq]; [exact Hq|]. exfalso. apply Nq. rewrite map_id. exact Hq. }
  { rewrite map_id. apply (al_sh _ _ _ _ A2). } { apply (al_keys _ _ _ _ A2). }
  assert (Tz : time z2 = time s2) by apply (sh_time _ _ _ (al_sh _ _ _ _ A2)). rewrite Tz, Z2, (need_shared _ _ _ (al_sh _ _ _ _ A3)).
  assert (A4 : exists z3, (if need_commands s2' then Ok (upd_sm z2' (set_last (sm z2') (Some (time s2)))) else Ok z2') = Ok z3 /\ alike (fun q => C q \/ active s q) False s3 z3).
  { assert (Ac : forall q, active s q -> active s2 q) by (intro q; unfold active; rewrite Q1; auto).
    assert (A3' : alike (fun q => C q \/ active s q) False s2' z2').
    { destruct A3 as [B1 [] B3 B4 B5 B6 B7 B8]. constructor; auto; [|constructor; auto; contradiction]. intros q Kq. eapply near_mono; [apply B1, Kq|intuition auto|contradiction]. }
    destruct (need_commands s2'); injection E3 as <-; (eexists; split; [reflexivity|]); [|exact A3'].
    destruct A3' as [B1 [] B3 B4 B5 B6 B7 B8]. constructor; auto; [|constructor; auto]. intros q Kq. destruct (B1 q Kq) as [[]]. constructor; auto. constructor; auto. }
  destruct A4 as (z3 & -> & A4). eapply post_alike; eassumption.
Qed.
End Rest.
End Order.

(** ** Runs *)
Section Run.
Context {W : world}.
Implicit Types (c : ctx W) (s z : st W).

Lemma valid_reordered c c' : reordered c c' -> valid_ctx c -> valid_ctx c'.
Proof.
  intros (P1 & P2 & _ & _ & P5 & _) V. destruct (valid_ctx_keys _ V) as [K1 K2]. destruct V as (_ & N1 & N2 & N3).
  assert (I1 : forall q, In q (akeys (c_models c')) <-> In q (akeys (c_models c))) by (intro q; split; apply Permutation_in; [apply Permutation_sym|]; apply keys_perm, P1).
  assert (I2 : forall q, In q (akeys (c_players c')) <-> In q (akeys (c_players c))) by (intro q; split; apply Permutation_in; [apply Permutation_sym|]; apply keys_perm, P2).
  assert (I3 : forall q, In q (akeys (g_missions (c_cfg c'))) <-> In q (akeys (g_missions (c_cfg c)))) by (intro q; split; apply Permutation_in; [apply Permutation_sym|]; apply keys_perm, P5).
  split; [|split; [|split]]; try (eapply Permutation_NoDup; [apply keys_perm; eassumption|assumption]).
  unfold ctx_post_init.
  replace (same_keys _ _) with true; [|symmetry; apply same_keys_spec; intro q; rewrite I1, I2; apply K1]. cbn [negb].
  replace (forallb _ _) with true; [reflexivity|]. symmetry. apply forallb_forall. intros p Hp. apply dmem_spec. apply I1, K2, I3. exact Hp.
Qed.

Lemma init_reordered c c' m m' s0 : reordered c c' -> valid_ctx c -> init_run c m = Ok s0 -> exists z0, init_run c' m' = Ok z0 /\
  forall q, In q (akeys (c_players c)) -> dget (c_players (cx z0)) q = dget (c_players (cx s0)) q.
Proof.
  intros Ro V H. pose proof (valid_reordered _ _ Ro V) as V'. destruct Ro as (P1 & P2 & _ & _ & P5 & Esc & _ & _ & Esd & _).
  pose proof (init_agents c m s0 (proj1 (proj2 (proj2 V))) H) as Ia.
  assert (G : forall q, In q (akeys (c_players c')) -> exists a0 md a, dget (c_players c') q = Some a0 /\ dget (c_models c') q = Some md /\ agent_init W a0 q (g_seed (c_cfg c')) (g_scen (c_cfg c')) (dget (g_missions (c_cfg c')) q) md = Ok a /\ dget (c_players (cx s0)) q = Some a).
  { intros q Hq. destruct (Ia q) as (a & (a0 & md & J1 & J2 & J3) & J4); [eapply Permutation_in; [apply Permutation_sym, keys_perm, P2|exact Hq]|].
    exists a0, md, a. rewrite (dget_perm _ _ P1), (dget_perm _ _ P2), (dget_perm _ _ P5), Esc, Esd by apply V. auto. }
  assert (X : forall l z, NoDup l -> (forall q, In q l -> In q (akeys (c_players c'))) -> c_cfg (cx z) = c_cfg c' -> c_models (cx z) = c_models c' -> (forall q, In q l -> dget (c_players (cx z)) q = dget (c_players c') q) ->
    exists z0, rfold init_player z l = Ok z0 /\ (forall q, In q l -> dget (c_players (cx z0)) q = dget (c_players (cx s0)) q) /\ (forall q, ~ In q l -> dget (c_players (cx z0)) q = dget (c_players (cx z)) q)).
  { induction l as [|q l IH]; intros z N I1 E1 E2 E3; cbn [rfold]; [exists z; split; [reflexivity|]; split; [intros q []|auto]|]. inversion N as [|? ? N1 N2]; subst.
    destruct (G q (I1 q (or_introl eq_refl))) as (a0 & md & a & J1 & J2 & J3 & J4). unfold init_player at 1. unfold agetE. rewrite (E3 q (or_introl eq_refl)), J1, E1, E2, J2, J3.
    match goal with |- exists z0, rfold init_player ?x l = _ /\ _ => destruct (IH x) as (z0 & Z1 & Z2 & Z3) end; auto.
    - intros r Hr. apply I1. right. exact Hr.
    - intros r Hr. cbn. rewrite dget_dset_other; [apply E3; right; exact Hr|]. intros ->. contradiction.
    - exists z0. split; [exact Z1|]. split.
      + intros r [<-|Hr]; [|auto]. rewrite Z3 by exact N1. cbn. rewrite dget_dset_same, J4. reflexivity.
      + intros r Nr. rewrite Z3 by (intro; apply Nr; right; assumption). cbn. rewrite dget_dset_other; [reflexivity|]. intros ->. apply Nr. left. reflexivity. }
  destruct (X (akeys (c_players c')) (mkSt c' m' [])) as (z0 & Z1 & Z2 & _); auto; [apply V'|].
  exists z0. split; [exact Z1|]. intros q Hq. apply Z2. eapply Permutation_in; [apply keys_perm, P2|exact Hq].
Qed.

Lemma after_incl s0 k s : after s0 k s -> forall j sj, after s0 j sj -> (j <= k)%nat -> incl (ev sj) (ev s).
Proof.
  induction 1 as [|k s s' A IH T E]; intros j sj Aj L.
  - replace j with 0%nat in Aj by lia. inversion Aj. apply incl_refl.
  - destruct (Nat.eq_dec j (S k)) as [->|Nj].
    + inversion Aj as [|? x ? Ax Tx Ex]; subst. assert (x = s) as -> by (eapply after_fun; eassumption). rewrite E in Ex. injection Ex as <-. apply incl_refl.
    + eapply incl_tran; [apply (IH j sj Aj); lia|]. apply step_incl. exact E.
Qed.
Lemma in_asks s p t full o u : In (EAsk p t full o u) (ev s) -> In full (map ask_seen (asks s p)).
Proof.
  intro H. apply in_map_iff. exists (t, full, o, u). split; [reflexivity|]. unfold asks, asks_of. apply in_flat_map. exists (EAsk p t full o u).
  split; [apply -> in_rev; exact H|]. rewrite Nat.eqb_refl. left. reflexivity.
Qed.

Lemma run_order_gen (other : report (w_D W) -> report (w_D W) -> Prop) (Pl : st W -> Prop) c c' s0 z0 k s : reordered c c' -> NoDup (akeys (c_sensors c)) ->
  (forall Seen R K C O (x z x1 : st W), alike R (g_scen (c_cfg c)) K other C O x z -> check_players x = Ok x1 -> clean Seen (ev x1) -> Pl x1 -> exists z1, check_players z = Ok z1 /\ alike R (g_scen (c_cfg c)) K other C O x1 z1) ->
  (forall j x, (j <= k)%nat -> after s0 j x -> Pl x) ->
  started c s0 -> started c' z0 -> 0 < dt (g_param (c_cfg c)) -> after s0 k s ->
  (forall q, In q (akeys (c_models c)) -> order_blind c s q) -> one_at_a_time s -> exists z, after z0 k z /\ same_state_up_to other s z.
Proof.
  intros Ro Ns Hpr Hl St Sz D A Ob Nc.
  pose (K := fun q : player => In q (akeys (c_models c))).
  pose (sc := g_scen (c_cfg c)).
  pose (Seen := fun q o => In o (map ask_seen (asks s q))).
  pose (R := fun q fa hb => exists R0, blind_to_order sc q (map ask_seen (asks s q)) R0 /\ R0 fa hb : Prop).
  assert (HR : forall p f a h b o o' f' g a1 u a2 x, R p (f, a) (h, b) -> Seen p o -> same_obs o o' ->
    sense W f sc o p = Ok (f', g) -> agent_cmds W a g = Ok (a1, u) -> agent_extra W a1 = Ok (a2, x) ->
    exists h' g' b1 b2, sense W h sc o' p = Ok (h', g') /\ agent_cmds W b g' = Ok (b1, u) /\ agent_extra W b1 = Ok (b2, x) /\ R p (f', a2) (h', b2)).
  { intros p f a h b o o' f' g a1 u a2 x (R0 & C0 & H0) So Oo S1 S2 S3. destruct (C0 _ _ _ _ _ _ _ _ _ _ _ _ H0 So Oo S1 S2 S3) as (h' & g' & b1 & b2 & B1 & B2 & B3 & B4).
    exists h', g', b1, b2. repeat (split; [assumption|]). exists R0. auto. }
  assert (Fi : clean Seen (ev s)).
  { split; [exact Nc|]. intros p t full o u H. eapply in_asks. exact H. }
  pose (Cj := fun (x : st W) p => active x p /\ s_last (sm x) <> None).
  assert (G : forall k' s', after s0 k' s' -> (k' <= k)%nat -> exists z, after z0 k' z /\ alike R sc K other (Cj s') False s' z).
  { induction 1 as [|k' x x' Ax IH Tx Ex]; intro Lk.
    - exists z0. split; [constructor|].
      destruct St as (V & m & Um & H0). destruct Sz as (V' & m' & Um' & H0'). destruct (valid_ctx_keys _ V) as [K1 K2].
      destruct (init_run_ok c m s0 H0) as (Q1&Q2&Q3&Q4&Q5&Q6&Q7&Q8&Q9&Q10&Q11&Q12&Q13&Q14&Q15).
      destruct (init_run_ok _ m' z0 H0') as (T1&T2&T3&T4&T5&T6&T7&T8&T9&T10&T11&T12&T13&T14&T15).
      destruct (init_reordered c c' m m' s0 Ro V H0) as (z0' & Z1 & Z2). rewrite H0' in Z1. injection Z1 as <-.
      destruct Ro as (P1 & P2 & P3 & P4 & P5 & E1 & E2 & E3 & E4 & E5 & E6 & E7 & E8).
      assert (Kp : forall q, In q (akeys (c_players c')) <-> In q (akeys (c_players c))) by (intro q; split; apply Permutation_in; [apply Permutation_sym|]; apply keys_perm, P2).
      assert (Sh : shared sc K False s0 z0).
      { constructor; rewrite ?Q1, ?T1, ?Q3, ?T3, ?Q6, ?T6, ?Q11, ?T11; auto; try apply V; try apply V'; try congruence; try contradiction.
        - intros q Hq. unfold active in Hq. rewrite Q3 in Hq. apply K1, Hq.
        - intros q Hq. unfold active in Hq. rewrite T3 in Hq. apply K1, Kp, Hq. }
      constructor; rewrite ?Q1, ?T1, ?Q7, ?T7, ?Q8, ?T8, ?Q9, ?T9; auto; try apply V; [|rewrite E7; apply same_refl].
      intros q Kq. assert (Hq : In q (akeys (c_players c))) by (apply K1, Kq). constructor; auto.
      + rewrite Q2, T2. apply dget_perm; [exact P1|apply V].
      + unfold Cj. rewrite Q11, Um. intros [_ X]. congruence.
      + rewrite (Q14 q Hq), (T14 q (proj2 (Kp q) Hq)). reflexivity.
      + unfold dmem. rewrite (Z2 q Hq). reflexivity.
      + intros a Ha. exists a. split; [rewrite (Z2 q Hq); exact Ha|]. intros f Hf.
        destruct (init_agents c m s0 (proj1 (proj2 (proj2 V))) H0 q Hq) as (a' & I1 & I2). rewrite Ha in I2. injection I2 as <-.
        assert (Gs : get_sensor c q = Ok f) by (unfold get_sensor in *; rewrite Q1, Q4 in Hf; exact Hf).
        exists f. split. { unfold get_sensor in *. rewrite T1, T4, (dget_perm _ _ P3 Ns), E3. exact Gs. }
        destruct (Ob q Kq) as (R0 & C0 & H0''). exists R0. split; [exact C0|]. apply H0''; assumption.
    - destruct IH as (z & A2 & A3); [lia|].
      assert (Ax' : after s0 (S k') x') by (econstructor; eassumption).
      assert (Fx : clean Seen (ev x')) by (eapply clean_incl; [eapply (after_incl s0 k s A); [exact Ax'|lia]|exact Fi]).
      pose proof (after_step _ _ _ _ _ St D Ax Ex) as Sr.
      destruct (step_alike Seen R sc K other HR Pl (Hpr Seen R K) (Cj x) x z x' A3) as (z' & Z1 & Z2); [|exact Ex|exact Fx|eapply Hl; [exact Lk|exact Ax']|].
      + intros Nd p Hp. split; [exact Hp|]. intro X. unfold need_commands in Nd. rewrite X in Nd. discriminate.
      + exists z'. split; [econstructor; [exact A2| |exact Z1]; rewrite (al_term _ _ _ _ _ _ _ _ A3); exact Tx|].
        destruct Z2 as [B1 B2 B3 B4 B5 B6 B7 B8]. constructor; auto. intros q Kq. eapply near_mono; [apply B1, Kq| |auto]. intros [Hq _]. right. eapply srel_active; eassumption. }
  destruct (G k s A (le_n _)) as (z & G1 & G2). exists z. split; [exact G1|].
  pose proof (started_facts _ _ _ _ St D A) as F1. pose proof (al_keys _ _ _ _ _ _ _ _ G2) as Pk. destruct G2 as [B1 B2 B3 B4 B5 B6 B7 B8].
  split; [apply (sh_time _ _ _ _ _ B2)|]. split; [exact Pk|]. split; [|auto]. rewrite (fa_models _ _ _ _ F1). intros q Kq. destruct (B1 q Kq). auto.
Qed.
Lemma run_order c c' s0 z0 k s : reordered c c' -> NoDup (akeys (c_sensors c)) -> (forall a b, intersects W a b = intersects W b a) ->
  started c s0 -> started c' z0 -> 0 < dt (g_param (c_cfg c)) -> after s0 k s ->
  (forall q, In q (akeys (c_models c)) -> order_blind c s q) -> no_contact s -> exists z, after z0 k z /\ same_state s z.
Proof.
  intros Ro Ns Sy St Sz D A Ob Nc.
  destruct (run_order_gen (fun _ _ => False) (fun x => forall p q t out, ~ In (EPair p q t out) (ev x)) c c' s0 z0 k s Ro Ns) as (z & Z1 & Z2 & Z3 & Z4 & (rs & Z5 & Z5') & Z6); auto.
  - intros Seen R K C O x z x1 Ax Hx _ Nx. eapply none_alike; eassumption.
  - intros j x Lj Ax p q t out I1. eapply Nc. eapply (after_incl s0 k s A j x Ax Lj). exact I1.
  - intros p q p' q' t out out' I1. exfalso. eapply Nc. exact I1.
  - exists z. split; [exact Z1|]. split; [exact Z2|]. split; [exact Z3|]. split; [exact Z4|]. split; [|exact Z6].
    assert (E : rs = c_reports (cx s)) by (clear - Z5; induction Z5 as [|? ? ? ? [?|[]]]; congruence). subst rs. exact Z5'.
Qed.
Lemma run_order_contact other Gp c c' s0 z0 k s : reordered c c' -> NoDup (akeys (c_sensors c)) -> (forall a b, intersects W a b = intersects W b a) ->
  stays_in_place (W := W) (g_scen (c_cfg c)) -> resolves_evenly (W := W) (g_scen (c_cfg c)) Gp other ->
  started c s0 -> started c' z0 -> 0 < dt (g_param (c_cfg c)) -> after s0 k s ->
  (forall q, In q (akeys (c_models c)) -> order_blind c s q) -> one_at_a_time s -> collided_as Gp s0 k -> exists z, after z0 k z /\ same_state_up_to other s z.
Proof.
  intros Ro Ns Sy Hk Hf St Sz D A Ob On Co. apply (run_order_gen other (placed Gp) c c' s0 z0 k s); auto.
  - intros Seen R K C O x z x1. apply (pairs_alike Seen R _ K Gp other Sy Hk Hf).
  - intros j x Lj Ax p q out a b I1 Ea Eb. eapply Co; eassumption.
Qed.
End Run.
