(** The order in which the players are listed. *)
From Coq Require Import QArith Qcanon ZArith List Bool Arith Lia Permutation.
From Verif Require Import Base Num SeqModel SeqProofs VehState CtrlModel AgentModel PerceptionModel PerceptionSpec SimulatorModel SimulatorSpec DictLemmas SimulatorProofs SimulatorProofs2 SimulatorProofs3 SimulatorProofs4 SimulatorProofs5 SimulatorProofs6 SimulatorProofs7 SimulatorWorld CauseSpec CauseProofs CauseMain ApartSpec ApartProofs ApartMain OrderSpec OrderProofs OrderRead.
Import ListNotations.
Open Scope Qc_scope.
(* BODY *)

(** ** C136  The order in which the players are listed does not matter *)

(** Take two contexts that differ only in the order in which the dicts of models, players, sensors and missions list their entries.  If the sensors and agents do not depend on the order of the players in an observation and no collision between two players is resolved (collisions with obstacles are allowed), then both runs start, and after every number of iterations they agree on the time, the active players, everybody's model and log, the set of reported collisions and whether the run is over. *)
Theorem C136_order : forall W (c c' : ctx W) s0 k s, reordered c c' -> NoDup (akeys (c_sensors c)) -> (forall a b, intersects W a b = intersects W b a) ->
  started c s0 -> 0 < dt (g_param (c_cfg c)) -> after s0 k s -> (forall q, In q (akeys (c_models c)) -> order_blind c s q) -> no_contact s ->
  exists z0 z, started c' z0 /\ after z0 k z /\ same_state s z.
Proof.
  intros W c c' s0 k s Ro Ns Sy St D A Ob Nc. pose proof St as (V & m & Um & H0). destruct (init_reordered c c' m m s0 Ro V H0) as (z0 & Z0 & _).
  assert (Sz : started c' z0) by (split; [eapply valid_reordered; eassumption|eauto]). destruct (run_order c c' s0 z0 k s Ro Ns Sy St Sz D A Ob Nc) as (z & Z1 & Z2). eauto.
Qed.

(** So a complete run of the other context ends too, in the same state and with the same logs. *)
Theorem C136_run : forall W (c c' : ctx W) m m' fuel sf, reordered c c' -> NoDup (akeys (c_sensors c)) -> (forall a b, intersects W a b = intersects W b a) ->
  valid_ctx c -> unused m -> unused m' -> 0 < dt (g_param (c_cfg c)) -> run fuel m c = Some (Ok sf) -> (forall q, In q (akeys (c_models c)) -> order_blind c sf q) -> no_contact sf ->
  exists zf, run fuel m' c' = Some (Ok zf) /\ same_state sf zf /\ same_logs_all sf zf.
Proof.
  intros W c c' m m' fuel sf Ro Ns Sy V U U' D H Ob Nc. unfold run in H. destruct (init_run c m) as [s0|] eqn:E0; [|discriminate].
  assert (Sd : started c s0) by (split; [exact V|eauto]).
  destruct (loop fuel s0) as [[s|]|] eqn:El; [|discriminate|discriminate].
  destruct (loop_steps W s0 fuel s0 s El 0%nat (after_0 s0)) as (k & Lk & A & Tm). cbn [Nat.add] in A. pose proof (started_facts _ _ _ _ Sd D A) as F.
  assert (Nm : NoDup (akeys (c_models (cx s)))) by (rewrite (fa_models _ _ _ _ F); apply V).
  destruct (write_logs_ok s (fa_inv _ _ _ _ F) Nm) as (sf' & Wf & Wev & Wsm & (lg & Wcx) & Wl). rewrite Wf in H. injection H as ->.
  destruct (init_reordered c c' m m' s0 Ro V E0) as (z0 & Z0 & _).
  pose proof (valid_reordered c c' Ro V) as V'. assert (Sz : started c' z0) by (split; [exact V'|eauto]).
  assert (Ob' : forall q, In q (akeys (c_models c)) -> order_blind c s q).
  { intros q Kq. destruct (Ob q Kq) as (R & R1 & R2). exists R. split; [|exact R2]. unfold asks in *. rewrite Wev in R1. exact R1. }
  assert (Nc' : no_contact s) by (unfold no_contact in *; rewrite Wev in Nc; exact Nc).
  destruct (run_order c c' s0 z0 k s Ro Ns Sy Sd Sz D A Ob' Nc') as (z & Az & Sm).
  pose proof Sm as (H1 & H2 & H3 & H4 & H5 & H6).
  assert (Lz : loop fuel z0 = Some (Ok z)) by (apply (after_loop W z0 k 0%nat z z0 fuel (after_0 z0)); [exact Az|congruence|exact Lk]).
  assert (D' : 0 < dt (g_param (c_cfg c'))) by (destruct Ro as (_ & _ & _ & _ & _ & _ & -> & _); exact D).
  pose proof (started_facts _ _ _ _ Sz D' Az) as Fz.
  assert (Nz : NoDup (akeys (c_models (cx z)))) by (rewrite (fa_models _ _ _ _ Fz); apply V').
  destruct (write_logs_ok z (fa_inv _ _ _ _ Fz) Nz) as (zf & Xf & Xev & Xsm & (lgz & Xcx) & Xl).
  exists zf. split; [unfold run; rewrite Z0, Lz, Xf; reflexivity|]. split.
  - unfold same_state, time, logger_of, model_of in *. rewrite ?Wcx, ?Xcx, ?Wsm, ?Xsm. cbn. auto 10.
  - intros q Kq. rewrite Wcx in Kq. cbn in Kq. destruct (Wl q Kq) as (l & G1 & M1 & M2 & M3 & M4 & _).
    destruct (Xl q) as (k' & G2 & M1' & M2' & M3' & M4' & _).
    { rewrite (fa_models _ _ _ _ Fz). eapply Permutation_in; [apply keys_perm, Ro|]. rewrite <- (fa_models _ _ _ _ F). exact Kq. }
    exists l, k'. split; [exact G1|]. split; [exact G2|]. rewrite M1, M2, M3, M4, M1', M2', M3', M4'. unfold states_log, commands_log, extra_log, info_log. rewrite (proj2 (H3 q Kq)). auto.
Qed.

(** ** Which sensors and agents do not depend on the order *)

(** A sensor that passes reorderings on as reorderings, with an agent that does not read the order. *)
Theorem C136_blind : forall W (c : ctx W) s0 k s p S A, started c s0 -> 0 < dt (g_param (c_cfg c)) -> after s0 k s ->
  passes_order (g_scen (c_cfg c)) p S -> (forall f, get_sensor c p = Ok f -> S f f) -> reads_unordered A -> (forall a, initialised c p a -> A a) -> order_blind c s p.
Proof.
  intros W c s0 k s p S A St D Af Ps Sf [A1 A2] Ai. exists (fun fa hb => S (fst fa) (fst hb) /\ snd hb = snd fa /\ A (snd fa)). split.
  - intros f a h b o o' f' g a1 u a2 x (E1 & E2 & E3) Ho So Se Sa Sx. cbn [fst snd] in *. subst b. apply in_map_iff in Ho as (q & <- & Hq).
    destruct (request_facts W c s0 k s p q St D Af Hq) as (_ & _ & _ & _ & _ & _ & _ & _ & Pr).
    destruct (Ps f h (ask_seen q) o' f' g E1 Pr So Se) as (h' & g' & H1 & H2 & H3 & H4). destruct (A1 a g g' a1 u E3 H3 H2 Sa) as [H5 H6].
    exists h', g', a1, a2. split; [exact H1|]. split; [exact H5|]. split; [exact Sx|]. cbn [fst snd]. split; [exact H4|]. split; [reflexivity|]. eapply A2; eassumption.
  - intros f a Hf Ha. cbn [fst snd]. auto.
Qed.

Lemma nodup_same {W : world} (o o' : simobs (w_X W) (w_F W)) : same_obs o o' -> NoDup (akeys (o_players o)) -> NoDup (akeys (o_players o')).
Proof. intros [_ P]. apply Permutation_NoDup. apply keys_perm. exact P. Qed.

Lemma dget_same {W : world} (o o' : simobs (w_X W) (w_F W)) : same_obs o o' -> NoDup (akeys (o_players o)) -> forall q, dget (o_players o') q = dget (o_players o) q.
Proof. intros [_ P] N q. apply dget_perm; assumption. Qed.

(** IdObsFilter. *)
Theorem C136_id_sensor : forall W sc p (f : w_S W), (forall o, sense W f sc o p = Ok (f, o)) -> passes_order sc p (fun a b => a = f /\ b = f).
Proof.
  intros W sc p f Hf f1 h o o' f' g [-> ->] N So Se. rewrite Hf in Se. injection Se as <- <-. exists f, o'. rewrite Hf. auto 10.
Qed.

Lemma ddel_perm {V} (d d' : list (player * V)) p : Permutation d d' -> NoDup (akeys d) -> Permutation (ddel d p) (ddel d' p).
Proof.
  intros P N. rewrite !ddel_without; [|eapply Permutation_NoDup; [apply keys_perm, P|exact N]|exact N]. unfold without.
  induction P as [|x l l' P IH|x y l|l l' l'' P IH P' IH']; cbn [filter].
  - constructor.
  - unfold akeys in N. cbn [map] in N. inversion N; subst. destruct (negb (fst x =? p)%nat); auto.
  - destruct (negb (fst x =? p)%nat), (negb (fst y =? p)%nat); auto. constructor.
  - eapply Permutation_trans; [apply IH, N|apply IH']. eapply Permutation_NoDup; [apply keys_perm, P|exact N].
Qed.

(** GhostObsFilter around an IdObsFilter. *)
Theorem C136_ghost_sensor : forall W P Z_ shapes (g : geo (w_X W) (w_F W) P Z_) e d f sc p, ghost_sensor W shapes g e d f -> passes_order sc p (fun a b => a = f /\ b = f).
Proof.
  intros W P Z_ shapes g e d f sc p GS f1 h o o' f' r [-> ->] N So Se. rewrite GS in *. unfold ghost_sense, id_sense in *.
  assert (Dm : dmem (o_players o') e = dmem (o_players o) e) by (unfold dmem; rewrite (dget_same _ _ So N); reflexivity). rewrite Dm.
  destruct (Nat.eqb p e || negb (dmem (o_players o) e))%bool.
  - injection Se as <- <-. exists f, o'. auto 10.
  - unfold agetE in *. rewrite !(dget_same _ _ So N). destruct (dget (o_players o) p) as [me|]; [|discriminate]. destruct (position_of g (fst me)) as [a|]; [|discriminate].
    destruct (dget (o_players o) e) as [it|]; [|discriminate]. destruct (position_of g (fst it)) as [b|]; [|discriminate]. injection Se as <- <-.
    eexists f, _. split; [reflexivity|]. destruct (further a b d); [|auto 10]. unfold with_players. cbn [o_players]. split; [|split; [apply NoDup_ddel, N|auto]]. split; [apply So|]. cbn. apply ddel_perm; [apply So|exact N].
Qed.

Definition delayed_alike {W : world} (emb : delayed (X := w_X W) (F := w_F W) unit -> w_S W) (f h : w_S W) : Prop :=
  exists d d', f = emb d /\ h = emb d' /\ Forall2 (fun x y => fst y = fst x /\ same_obs (snd x) (snd y) /\ NoDup (akeys (o_players (snd x)))) (dl_hist d) (dl_hist d').

Lemma forall2_nth {A B} (R : A -> B -> Prop) l l' : Forall2 R l l' -> forall i x, nth_error l i = Some x -> exists y, nth_error l' i = Some y /\ R x y.
Proof. induction 1 as [|x y l l' H Hl IH]; intros [|i] v E; cbn in *; try discriminate; [injection E as <-; eauto|auto]. Qed.

(** DelayedObsFilter around an IdObsFilter: the observations it keeps may be in another order too. *)
Theorem C136_delayed_sensor : forall W shapes L emb sc p, delay_sensor W shapes L emb -> passes_order sc p (delayed_alike emb) /\ forall s, delayed_alike emb (emb (mkDelayed s [])) (emb (mkDelayed s [])).
Proof.
  intros W shapes L emb sc p DS. split.
  - intros f h o o' f' r (d & d' & -> & -> & Hh) N So Se. rewrite DS in *. unfold delayed_sense, id_sense in *. cbv zeta in *.
    assert (Ot : o_time o' = o_time o) by apply So. rewrite Ot.
    set (e := (o_time o + L, with_time o (o_time o + L))) in *. set (e' := (o_time o + L, with_time o' (o_time o + L))) in *.
    assert (Hh' : Forall2 (fun x y => fst y = fst x /\ same_obs (snd x) (snd y) /\ NoDup (akeys (o_players (snd x)))) (dl_hist d ++ [e]) (dl_hist d' ++ [e'])).
    { apply Forall2_app; [exact Hh|]. constructor; [|constructor]. split; [reflexivity|]. split; [split; [reflexivity|apply So]|exact N]. }
    assert (Fs : map fst (dl_hist d' ++ [e']) = map fst (dl_hist d ++ [e])). { clear - Hh'. induction Hh' as [|x y l l' (H & _) _ IH]; [reflexivity|]. cbn. rewrite H, IH. reflexivity. }
    rewrite Fs. destruct (bisect_left (map fst (dl_hist d ++ [e])) (o_time o)) as [i|]; [|discriminate].
    destruct (nth_error (dl_hist d ++ [e]) i) as [[t v]|] eqn:En; [|discriminate]. injection Se as <- <-.
    destruct (forall2_nth _ _ _ Hh' _ _ En) as ([t' v'] & En' & H1 & H2 & H3). rewrite En'. cbn [fst snd] in *. eexists _, v'. split; [reflexivity|]. split; [exact H2|]. split; [exact H3|].
    eexists _, _. split; [reflexivity|]. split; [reflexivity|]. exact Hh'.
  - intro s. eexists _, _. split; [reflexivity|]. split; [reflexivity|]. constructor.
Qed.

Lemma interleave_loop_perm {A} n : forall ls : list (list A), (list_max (map (@length A) ls) <= n)%nat -> Permutation (interleave_loop n ls) (concat ls).
Proof.
  induction n as [|n IH]; intros ls H; cbn [interleave_loop].
  - assert (E : concat ls = []); [|rewrite E; constructor]. apply list_max_le in H. induction ls as [|l ls IHl]; [reflexivity|]. cbn [map] in H. inversion H as [|? ? H1 H2]; subst. destruct l; [exact (IHl H2)|cbn in H1; lia].
  - assert (X : Permutation (flat_map (firstn 1) ls ++ concat (map (@tl A) ls)) (concat ls)).
    { clear. induction ls as [|l ls IHl]; [constructor|]. cbn [flat_map map concat]. destruct l as [|x l]; cbn [firstn tl app]; [exact IHl|]. constructor.
      eapply Permutation_trans; [|apply Permutation_app_head; exact IHl]. rewrite !app_assoc. apply Permutation_app_tail. apply Permutation_app_comm. }
    eapply Permutation_trans; [|exact X]. apply Permutation_app_head. apply IH. clear - H. apply list_max_le. apply list_max_le in H.
    induction ls as [|l ls IHl]; cbn; constructor; inversion H; subst; auto. destruct l; cbn in *; lia.
Qed.

Lemma interleave_perm {A} (ls ls' : list (list A)) : Permutation ls ls' -> Permutation (interleave ls) (interleave ls').
Proof.
  intro P. unfold interleave. eapply Permutation_trans; [apply interleave_loop_perm; lia|]. eapply Permutation_trans; [|apply Permutation_sym, interleave_loop_perm; lia].
  induction P as [|x l l' P IH|x y l|l l' l'' P IH P' IH']; cbn; [constructor|apply Permutation_app_head; assumption| |eapply Permutation_trans; eassumption].
  rewrite !app_assoc. apply Permutation_app_tail. apply Permutation_app_comm.
Qed.

Lemma fov_scan {X F P Z_} (g : geo X F P Z_) region : (forall a b, exists v, PerceptionModel.hits g a b = Ok v) -> forall l acc, NoDup (akeys l) -> (forall q, In q (akeys l) -> ~ In q (akeys acc)) ->
  rfold (fov_body g) (region, acc) l = Ok (region, acc ++ filter (fun e => match PerceptionModel.hits g region (snd (snd e)) with Ok b => b | Err _ => false end) l).
Proof.
  intro Ht. induction l as [|[p [x occ]] l IH]; intros acc N D; cbn [rfold filter]; [rewrite app_nil_r; reflexivity|]. unfold akeys in N. cbn [map fst] in N. inversion N as [|? ? N1 N2]; subst.
  unfold fov_body at 1. cbn [snd]. destruct (Ht region occ) as (v & Hv). rewrite Hv. destruct v.
  - assert (E : dset acc p (x, occ) = acc ++ [(p, (x, occ))]).
    { assert (Hn : ~ In p (akeys acc)) by (apply D; left; reflexivity). clear - Hn. induction acc as [|[k v] acc IH]; [reflexivity|]. unfold aset; fold (aset (V := X * F) Nat.eqb). unfold akeys in Hn. cbn [map fst] in Hn.
      destruct (Nat.eqb_spec k p) as [->|]; [exfalso; apply Hn; left; reflexivity|]. cbn [app]. f_equal. apply IH. intro. apply Hn. right. assumption. }
    rewrite E, IH, <- app_assoc; [reflexivity|exact N2|]. intros q Hq. unfold akeys. rewrite map_app, in_app_iff. cbn. intros [H|[<-|[]]]; [apply (D q); [right; exact Hq|exact H]|]. apply N1. exact Hq.
  - apply IH; [exact N2|]. intros q Hq. apply D. right. exact Hq.
Qed.

Lemma filter_perm {A} (f : A -> bool) l l' : Permutation l l' -> Permutation (filter f l) (filter f l').
Proof. induction 1; cbn [filter]; repeat (match goal with |- context [if ?b then _ else _] => destruct b end); auto; try constructor; try (eapply Permutation_trans; eassumption). Qed.

(** FovObsFilter, if the visible region depends on the set of obstacles only and the intersection tests do not raise. *)
Theorem C136_fov_sensor : forall W P Z_ shapes (g : geo (w_X W) (w_F W) P Z_) emb sc p, fov_sensor W shapes g emb -> (forall z l l', Permutation l l' -> fov g z l' = fov g z l) ->
  (forall a b, exists v, PerceptionModel.hits g a b = Ok v) -> passes_order sc p (fun a b => a = b /\ exists f, a = emb f).
Proof.
  intros W P Z_ shapes g emb sc p FS Fp Ht f1 h o o' f' r [<- (f & ->)] N So Se. rewrite FS in *. unfold fov_sense in *. unfold agetE in *. rewrite (dget_same _ _ So N).
  destruct (dget (o_players o) p) as [me|] eqn:Eme; [|discriminate]. destruct (pose_of g (fst me)) as [z|]; [|discriminate].
  destruct (match fv_cache f with [] => _ | c => Ok c end) as [static|]; [|discriminate].
  pose proof (others_perm p _ _ (proj2 So)) as Po.
  destruct (rmapM (fun e => to_cr g (snd (snd e))) (others p (o_players o))) as [ls|] eqn:El; [|discriminate].
  destruct (rmapM_perm _ _ _ Po _ El) as (ls' & El' & Pl). rewrite El'.
  rewrite (Fp z (static ++ interleave ls) (static ++ interleave ls')) by (apply Permutation_app_head, interleave_perm; exact Pl).
  destruct (fov g z (static ++ interleave ls)) as [region|]; [|discriminate].
  assert (Hs : forall (d : list (player * (w_X W * w_F W))), NoDup (akeys d) -> rfold (fov_body g) (region, [(p, me)]) (others p d) = Ok (region, [(p, me)] ++ filter (fun e => match PerceptionModel.hits g region (snd (snd e)) with Ok b => b | Err _ => false end) (others p d)) /\ NoDup (akeys ([(p, me)] ++ filter (fun e => match PerceptionModel.hits g region (snd (snd e)) with Ok b => b | Err _ => false end) (others p d)))).
  { intros d Nd. assert (Nf : forall (t : player * (w_X W * w_F W) -> bool) e, NoDup (akeys e) -> NoDup (akeys (filter t e))).
    { intros t. unfold akeys. induction e as [|v e IH]; intro Ne; [constructor|]. cbn [map filter] in *. inversion Ne as [|? ? M1 M2]; subst. destruct (t v); [|auto]. cbn [map]. constructor; [|auto]. intro H. apply M1. apply in_map_iff in H as (y & <- & Hy). apply filter_In in Hy as [Hy _]. apply in_map. exact Hy. }
    assert (No : forall q t, In q (akeys (filter t (others p d))) -> q <> p).
    { intros q t H. unfold akeys in H. apply in_map_iff in H as (y & <- & Hy). apply filter_In in Hy as [Hy _]. unfold others in Hy. apply filter_In in Hy as [_ Hy]. apply negb_true_iff, Nat.eqb_neq in Hy. exact Hy. }
    split.
    - apply fov_scan; [exact Ht|apply Nf, Nd|]. intros q Hq [E|[]]. cbn in E. apply (No q (fun _ => true)); [|auto]. replace (filter (fun _ => true) (others p d)) with (others p d); [exact Hq|]. clear. induction (others p d) as [|v l IH]; cbn; congruence.
    - cbn. constructor; [|apply Nf, Nf, Nd]. intro H. apply (No p _ H). reflexivity. }
  rewrite (proj1 (Hs _ N)) in Se. injection Se as <- <-. rewrite (proj1 (Hs _ (nodup_same _ _ So N))).
  eexists _, _. split; [reflexivity|]. split; [split; [apply So|cbn; constructor; apply filter_perm; exact Po]|]. split; [exact (proj2 (Hs _ N))|eauto].
Qed.

(** NPAgents only read the time. *)
Theorem C136_plan_agent : forall W emb, open_loop W emb -> reads_unordered (fun a : w_A W => exists plan, a = emb plan).
Proof.
  intros W emb (O1 & O2 & O3). split.
  - intros a g g' a1 u (plan & ->) N [Et _] H. rewrite O2 in *. unfold np_get_commands in *. rewrite Et. destruct (at_or_previous plan (o_time g)) as [v|]; [|discriminate]. injection H as <- <-. eauto.
  - intros a a1 x (plan & ->) H. rewrite O3 in H. injection H as <- <-. eauto.
Qed.

(** A lane following agent takes minima and asks whether anyone is in its way.  (If a state without velocity is observed, the order can matter: the loops stop at the first player to yield to.) *)
Theorem C136_lane_follower : forall W PP G Lane (env : lf_env (w_X W) PP G Lane) emb cmd, lane_following W env emb cmd -> (forall x, exists v, vx_of (lf_kin env) x = Some v) ->
  reads_unordered (fun a : w_A W => exists b, a = emb b).
Proof.
  intros W PP G Lane env emb cmd (O1 & O2 & O3) V. split.
  - intros a g g' a1 u (b & ->) N So H. rewrite O2 in *. destruct (lf_get_commands env b g) as [[b1 v]|] eqn:E; [|discriminate]. injection H as <- <-.
    assert (E' : lf_get_commands env b g' = Ok (b1, v)); [|rewrite E'; eauto]. unfold lf_get_commands in *. destruct (a_name b) as [n|]; [|discriminate].
    unfold agetE in *. rewrite (dget_same _ _ So N), (proj1 So). destruct (dget (o_players g) n) as [[x f]|]; [|discriminate]. destruct (lf_attr env x) as [[vx delta]|]; [|discriminate]. destruct (lf_along env (a_lane b) x) as [al|]; [|discriminate].
    destruct (get_speed_ref (lf_kin env) (a_sb b) n (Some (o_players g))) as [[r em]|] eqn:Er; [|discriminate]. rewrite (speed_ref_perm (lf_kin env) (a_sb b) n V _ _ _ (proj2 So) N Er). exact E.
  - intros a a1 x (b & ->) H. apply O3 in H. eauto.
Qed.

(** ** Pile-ups *)

Definition swap : world := {|
  w_X := Qc; w_U := Qc; w_M := Qc; w_A := unit; w_G := Qc; w_S := bool; w_F := Qc; w_O := Qc;
  w_E := nat; w_I := unit; w_D := unit; w_scen := unit;
  get_state := fun m => m; footprint := fun m => m; intersects := fun _ _ => true; is_dyn := fun _ => false;
  model_step := fun m u d => Ok m;
  agent_init := fun a _ _ _ _ _ => Ok a;
  agent_cmds := fun a o => Ok (a, 0);
  agent_extra := fun a => Ok (a, None);
  goal_done := fun g x _ => Ok false;
  sense := fun f _ o q => Ok (f, o);
  id_filter := false; cpu_time := fun _ _ => tt;
  env_query := fun _ _ => []; obstacles := fun _ => [];
  resolve := fun _ p q t a b => ((b, a), Ok None); resolve_env := fun p _ t m => (m, Ok None) |}.

Definition list_ctx (W : world) (sc : w_scen W) (models : list (player * w_M W)) (players : list (player * w_A W)) (sensors : list (player * w_S W)) (missions : list (player * w_G W)) : ctx W := @mkCtx W
  (@mkConfig W sc (mkParam (qf 1 2) (qf 1 2) (qz 2) (qz 10)) missions true 0%nat) models players sensors [] 0 false [] None.

(** When three players touch in one iteration, the pairs are resolved in the order of the dict, each with the velocities the previous one left.  Even with a collision test and a resolution that do not depend on who comes first, and with agents that look at nothing, two orders of the same three players give different velocities. *)
Theorem C136_pileup_matters : exists W (c c' : ctx W) s0 z0 s z p, reordered c c' /\ (forall a b, intersects W a b = intersects W b a) /\
  (forall o p q t a b, resolve W o p q t a b = let '((b', a'), r) := resolve W o q p t b a in ((a', b'), r)) /\
  started c s0 /\ started c' z0 /\ (forall q, In q (akeys (c_models c)) -> order_blind c s q) /\ after s0 1 s /\ after z0 1 z /\ model_of z p <> model_of s p.
Proof.
  set (c := list_ctx swap tt [(1%nat, qz 1); (2%nat, qz 2); (3%nat, qz 3)] [(1%nat, tt); (2%nat, tt); (3%nat, tt)] [] []).
  set (c' := list_ctx swap tt [(2%nat, qz 2); (1%nat, qz 1); (3%nat, qz 3)] [(2%nat, tt); (1%nat, tt); (3%nat, tt)] [] []).
  assert (S1 : started c (start_of c)) by start. assert (S2 : started c' (start_of c')) by start.
  exists swap, c, c', (start_of c), (start_of c'), (nth_st (start_of c) 1), (nth_st (start_of c') 1), 1%nat.
  assert (A : after (start_of c) 1 (nth_st (start_of c) 1)) by (apply nth_st_after; vm_compute; reflexivity).
  assert (D : 0 < dt (g_param (c_cfg c))) by (vm_compute; reflexivity).
  split; [repeat split; try reflexivity; try constructor; apply Permutation_refl|]. split; [reflexivity|]. split; [reflexivity|]. split; [exact S1|]. split; [exact S2|]. split.
  - intros q Kq. destruct (get_sensor c q) as [f|] eqn:Ef.
    + refine (C136_blind_pf swap c (start_of c) 1 (nth_st (start_of c) 1) q (fun a b => a = f /\ b = f) (fun _ => True) S1 D A (C136_id_sensor_pf swap _ q f (fun o => eq_refl)) _ _ (fun a _ => I)); [intros f0 H0; assert (f0 = f) by congruence; auto|].
      split; [intros a g g' a1 u _ _ _ H; cbn in *; auto|auto].
    + exfalso. destruct Kq as [<-|[<-|[<-|[]]]]; discriminate.
  - split; [exact A|]. split; [apply nth_st_after; vm_compute; reflexivity|]. intro H.
    assert (X : match model_of (nth_st (start_of c') 1) 1%nat, model_of (nth_st (start_of c) 1) 1%nat with Some a, Some b => qeqb a b | _, _ => true end = false) by (vm_compute; reflexivity).
    rewrite H in X. destruct (model_of (nth_st (start_of c) 1) 1%nat) as [v|]; [|discriminate]. destruct (qeqb_spec v v); [discriminate|congruence].
Qed.

(** Three players far apart, one with a ghost filter, listed in the opposite order: the hypotheses hold and the runs agree; the first two players have moved and the third has reached its goal. *)
Example C136_ex : let c := list_ctx crowd tt [(1%nat, qz 0); (9%nat, qz 20); (2%nat, qz 40)] [(1%nat, tt); (9%nat, tt); (2%nat, tt)] [(1%nat, true)] [(1%nat, qz 30); (2%nat, qz 41)] in
  let c' := list_ctx crowd tt [(2%nat, qz 40); (9%nat, qz 20); (1%nat, qz 0)] [(9%nat, tt); (2%nat, tt); (1%nat, tt)] [(1%nat, true)] [(2%nat, qz 41); (1%nat, qz 30)] in
  let s := nth_st (start_of c) 3 in
  reordered c c' /\ started c (start_of c) /\ after (start_of c) 3 s /\ (forall q, In q (akeys (c_models c)) -> order_blind c s q) /\ no_contact s /\
  (exists z, after (start_of c') 3 z /\ same_state s z) /\ akeys (c_players (cx s)) = [1%nat; 9%nat] /\ qs_eqb (map snd (states_log (W := crowd) s 1%nat)) [0; 1; 3 # 2]%Q = true.
Proof.
  intros c c'. cbv zeta.
  assert (S1 : started c (start_of c)) by start. assert (S2 : started c' (start_of c')) by start.
  assert (A : after (start_of c) 3 (nth_st (start_of c) 3)) by (apply nth_st_after; vm_compute; reflexivity).
  assert (D : 0 < dt (g_param (c_cfg c))) by (vm_compute; reflexivity).
  assert (Ro : reordered c c').
  { repeat split; try reflexivity; try (apply Permutation_refl); cbn.
    - eapply Permutation_trans; [apply perm_skip, perm_swap|]. eapply Permutation_trans; [apply perm_swap|]. apply perm_skip, perm_swap.
    - eapply Permutation_trans; [apply perm_swap|]. apply perm_skip, perm_swap.
    - apply perm_swap. }
  assert (Ob : forall q, In q (akeys (c_models c)) -> order_blind c (nth_st (start_of c) 3) q).
  { intros q Kq. assert (Rd : reads_unordered (W := crowd) (fun _ => True)).
    { split; [|auto]. intros a g g' a1 u _ _ [_ P] H. cbn in *. rewrite <- (Permutation_length P). auto. }
    destruct Kq as [<-|[<-|[<-|[]]]].
    - refine (C136_blind crowd c (start_of c) 3 (nth_st (start_of c) 3) 1%nat (fun a b => a = true /\ b = true) (fun _ => True) S1 D A (C136_ghost_sensor crowd _ _ (fun _ => []) crowd_geo 9%nat 1 true _ _ (fun sc o p => eq_refl)) _ Rd (fun a _ => I)). intros f H. injection H as <-. auto.
    - refine (C136_blind crowd c (start_of c) 3 (nth_st (start_of c) 3) 9%nat (fun a b => a = false /\ b = false) (fun _ => True) S1 D A (C136_id_sensor crowd _ _ false (fun o => eq_refl)) _ Rd (fun a _ => I)). intros f H. injection H as <-. auto.
    - refine (C136_blind crowd c (start_of c) 3 (nth_st (start_of c) 3) 2%nat (fun a b => a = false /\ b = false) (fun _ => True) S1 D A (C136_id_sensor crowd _ _ false (fun o => eq_refl)) _ Rd (fun a _ => I)). intros f H. injection H as <-. auto. }
  assert (Nc : no_contact (nth_st (start_of c) 3)).
  { assert (X : forallb (fun x => match x with EPair _ _ _ _ => false | _ => true end) (ev (nth_st (start_of c) 3)) = true) by (vm_compute; reflexivity). rewrite forallb_forall in X. intros p q t out H. apply X in H. discriminate. }
  split; [exact Ro|]. split; [exact S1|]. split; [exact A|]. split; [exact Ob|]. split; [exact Nc|]. split.
  - refine (run_order c c' (start_of c) (start_of c') 3 (nth_st (start_of c) 3) Ro _ _ S1 S2 D A Ob Nc); [repeat constructor; cbn; tauto|]. intros a b. apply near_sym.
  - split; vm_compute; reflexivity.
Qed.
