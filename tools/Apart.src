(** A player the others neither notice nor touch. *)
From Coq Require Import QArith Qcanon ZArith List Bool Arith Lia.
From Verif Require Import Base Num SeqModel SeqProofs AgentModel PerceptionModel PerceptionSpec SimulatorModel SimulatorSpec DictLemmas SimulatorProofs SimulatorProofs2 SimulatorProofs4 SimulatorProofs5 SimulatorProofs6 SimulatorProofs7 SimulatorWorld CauseSpec CauseProofs CauseMain ApartSpec ApartProofs.
Import ListNotations.
Open Scope Qc_scope.
(* BODY *)

(** ** C135  A player nobody notices and nobody touches changes nothing for the others *)

(** Take a simulation with a player [e] such that the others' sensors and agents answer as they would without [e], and no collision of [e] is resolved; if [e] has a mission, somebody else has one too.  Run the same context without [e].  After every number of iterations the two runs agree on the time, on which of the others are active and on everything logged for them, up to the iteration at which the run without [e] stops; and they agree on the others' models and the reported collisions too, as long as neither has stopped or both stop together. *)
Theorem C135_unnoticed : forall W (c : ctx W) e s0 z0 k s, started c s0 -> started (ctx_without e c) z0 -> 0 < dt (g_param (c_cfg c)) ->
  (In e (akeys (g_missions (c_cfg c))) -> exists q, q <> e /\ In q (akeys (g_missions (c_cfg c)))) -> after s0 k s ->
  (forall q, q <> e -> In q (akeys (c_models c)) -> ignores c s e q) -> untouched e s ->
  exists j sj z, after s0 j sj /\ after z0 j z /\ ((j = k /\ sj = s) \/ ((j < k)%nat /\ c_term (cx z) = true)) /\
    same_histories e sj z /\ (c_term (cx sj) = c_term (cx z) -> same_others e sj z) /\ (c_term (cx sj) = true -> c_term (cx z) = true).
Proof.
  intros W c e s0 z0 k s St Sz D L A Ig U. destruct (run_apart e c s0 z0 k s St Sz D L A Ig U) as (j & sj & z & A1 & A2 & []). exists j, sj, z. auto 10.
Qed.

(** If [e] has no mission and is not alone, the two runs take the same number of iterations and agree throughout. *)
Theorem C135_bystander : forall W (c : ctx W) e s0 z0 k s, started c s0 -> started (ctx_without e c) z0 -> 0 < dt (g_param (c_cfg c)) ->
  ~ In e (akeys (g_missions (c_cfg c))) -> (exists q, q <> e /\ In q (akeys (c_models c))) -> after s0 k s ->
  (forall q, q <> e -> In q (akeys (c_models c)) -> ignores c s e q) -> untouched e s ->
  exists z, after z0 k z /\ c_term (cx z) = c_term (cx s) /\ same_others e s z.
Proof.
  intros W c e s0 z0 k s St Sz D N Q A Ig U. destruct (run_apart e c s0 z0 k s St Sz D (fun H => match N H with end) A Ig U) as (j & sj & z & A1 & A2 & [H1 H2 H3 H4 H5]).
  specialize (H5 N Q). destruct H1 as [[-> ->]|[Lt Tz]]; [exists z; auto|]. exfalso. rewrite Tz in H5.
  assert (X : forall k s, after s0 k s -> (j < k)%nat -> False); [|exact (X k s A Lt)]. clear - A1 H5. induction 1 as [|k s s' A IH T E]; intro Lt; [lia|].
  destruct (Nat.eq_dec j k) as [->|Nj]; [|apply IH; lia]. rewrite (after_fun _ _ _ A1 _ A) in T. congruence.
Qed.

Lemma loop_steps W (s0 : st W) : forall fuel s r, loop fuel s = Some (Ok r) -> forall k, after s0 k s -> exists i, (i <= fuel)%nat /\ after s0 (k + i) r /\ c_term (cx r) = true.
Proof.
  induction fuel as [|f IH]; intros s r H k A; cbn in H; destruct (c_term (cx s)) eqn:E; try discriminate.
  - injection H as <-. exists 0%nat. rewrite Nat.add_0_r. auto.
  - injection H as <-. exists 0%nat. rewrite Nat.add_0_r. split; [lia|auto].
  - destruct (step s) as [s'|] eqn:Es; [|discriminate]. destruct (IH s' r H (S k)) as (i & L & Ai & T); [econstructor; eassumption|]. exists (S i). rewrite <- Nat.add_succ_comm. split; [lia|auto].
Qed.

Lemma after_loop W (s0 : st W) : forall i k r s fuel, after s0 k s -> after s0 (k + i) r -> c_term (cx r) = true -> (i <= fuel)%nat -> loop fuel s = Some (Ok r).
Proof.
  induction i as [|i IH]; intros k r s fuel A B T L.
  - rewrite Nat.add_0_r in B. rewrite (after_fun _ _ _ B _ A) in *. destruct fuel; cbn; rewrite T; reflexivity.
  - destruct fuel as [|f]; [lia|]. cbn.
    assert (X : c_term (cx s) = false /\ exists s', step s = Ok s').
    { assert (Y : forall n r, after s0 n r -> (k < n)%nat -> c_term (cx s) = false /\ exists s', step s = Ok s'); [|apply (Y _ _ B); lia].
      clear - A. induction 1 as [|n x x' Ax IH T E]; intro L; [lia|]. destruct (Nat.eq_dec k n) as [->|]; [|apply IH; lia]. rewrite (after_fun _ _ _ A _ Ax) in *. eauto. }
    destruct X as [-> (s' & Es)]. rewrite Es. apply (IH (S k)); [econstructor; try eassumption|rewrite Nat.add_succ_comm; exact B|exact T|lia].
    assert (Y : forall n r, after s0 n r -> (k < n)%nat -> c_term (cx s) = false); [|apply (Y _ _ B); lia].
    clear - A. induction 1 as [|n x x' Ax IH T E]; intro L; [lia|]. destruct (Nat.eq_dec k n) as [->|]; [|apply IH; lia]. rewrite (after_fun _ _ _ A _ Ax) in *. exact T.
Qed.

(** So the whole run without [e] ends too, after as many iterations, with the same models, reports and logs of the others. *)
Theorem C135_bystander_run : forall W (c : ctx W) e m m' fuel sf, valid_ctx c -> unused m -> unused m' -> 0 < dt (g_param (c_cfg c)) ->
  ~ In e (akeys (g_missions (c_cfg c))) -> (exists q, q <> e /\ In q (akeys (c_models c))) -> run fuel m c = Some (Ok sf) ->
  (forall q, q <> e -> In q (akeys (c_models c)) -> ignores c sf e q) -> untouched e sf ->
  exists zf, run fuel m' (ctx_without e c) = Some (Ok zf) /\ same_others e sf zf /\ same_logs e sf zf.
Proof.
  intros W c e m m' fuel sf V U U' D N Q H Ig Ut. unfold run in H. destruct (init_run c m) as [s0|] eqn:E0; [|discriminate].
  assert (Sd : started c s0) by (split; [exact V|eauto]).
  destruct (loop fuel s0) as [[s|]|] eqn:El; [|discriminate|discriminate].
  destruct (loop_steps W s0 fuel s0 s El 0%nat (after_0 s0)) as (k & Lk & A & Tm). cbn [Nat.add] in A. pose proof (started_facts _ _ _ _ Sd D A) as F.
  assert (Nm : NoDup (akeys (c_models (cx s)))) by (rewrite (fa_models _ _ _ _ F); apply V).
  destruct (write_logs_ok s (fa_inv _ _ _ _ F) Nm) as (sf' & Wf & Wev & Wsm & (lg & Wcx) & Wl). rewrite Wf in H. injection H as ->.
  destruct (init_without e c m m' s0 (proj1 (proj2 (proj2 V))) E0) as (z0 & Z0 & _).
  pose proof (valid_without e c V) as V'. assert (Sz : started (ctx_without e c) z0) by (split; [exact V'|eauto]).
  assert (Ig' : forall q, q <> e -> In q (akeys (c_models c)) -> ignores c s e q).
  { intros q Nq Kq. destruct (Ig q Nq Kq) as (R & R1 & R2). exists R. split; [|exact R2]. unfold asks in *. rewrite Wev in R1. exact R1. }
  assert (Ut' : untouched e s) by (unfold untouched in *; rewrite Wev in Ut; exact Ut).
  destruct (C135_bystander_pf W c e s0 z0 k s Sd Sz D N Q A Ig' Ut') as (z & Az & Tz & Sm).
  assert (Lz : loop fuel z0 = Some (Ok z)) by (apply (after_loop W z0 k 0%nat z z0 fuel (after_0 z0)); [exact Az|congruence|exact Lk]).
  pose proof (started_facts _ _ _ _ Sz D Az) as Fz.
  assert (Nz : NoDup (akeys (c_models (cx z)))) by (rewrite (fa_models _ _ _ _ Fz); apply V').
  destruct (write_logs_ok z (fa_inv _ _ _ _ Fz) Nz) as (zf & Xf & Xev & Xsm & (lgz & Xcx) & Xl).
  exists zf. split; [unfold run; rewrite Z0, Lz, Xf; reflexivity|]. destruct Sm as ((H1 & H2 & H3) & H4 & H5 & H6). split.
  - split; [split; [|split]|split; [|split]]; unfold time, logger_of, model_of in *; rewrite ?Wcx, ?Xcx, ?Wsm, ?Xsm; cbn; auto.
  - intros q Nq Kq. rewrite Wcx in Kq. cbn in Kq. destruct (Wl q Kq) as (l & G1 & M1 & M2 & M3 & M4 & _).
    destruct (Xl q) as (k' & G2 & M1' & M2' & M3' & M4' & _).
    { rewrite (fa_models _ _ _ _ Fz). cbn [ctx_without c_models]. rewrite keys_without. apply in_filter_ne. rewrite <- (fa_models _ _ _ _ F). auto. }
    exists l, k'. split; [exact G1|]. split; [exact G2|]. rewrite M1, M2, M3, M4, M1', M2', M3', M4'. unfold states_log, commands_log, extra_log, info_log. rewrite (H3 q Nq Kq). auto.
Qed.

(** An NPAgent whose sensor only looks at, or passes on, observations with the right time (an IdObsFilter, for one) ignores everybody. *)
Theorem C135_plan_ignores : forall W (c : ctx W) emb s e p plan, open_loop W emb -> dget (c_players c) p = Some (emb plan) ->
  (forall f, get_sensor c p = Ok f -> forall o, sense W f (g_scen (c_cfg c)) o p = Ok (f, o)) -> ignores c s e p.
Proof.
  intros W c emb s e p plan (O1 & O2 & O3) Hp Hs. exists (fun fa hb => fa = hb /\ snd fa = emb plan /\ get_sensor c p = Ok (fst fa)). split.
  - intros f a h b o f' g a1 u a2 x (E & Ea & Ef) _ S1 S2 S3. cbn [fst snd] in *. injection E as <- <-. subst a. rewrite (Hs f Ef) in S1. injection S1 as <- <-.
    rewrite O2 in S2. destruct (np_get_commands plan o) as [v|] eqn:En; [|discriminate]. injection S2 as <- <-. rewrite O3 in S3. injection S3 as <- <-.
    exists f, (obs_without e o), (emb plan), (emb plan). split; [apply Hs; exact Ef|]. split; [rewrite O2; unfold np_get_commands in *; cbn [obs_without o_time]; rewrite En; reflexivity|].
    split; [apply O3|]. auto.
  - intros f a Hf (a0 & m & I1 & _ & I3). cbn [fst snd]. rewrite Hp in I1. injection I1 as <-. rewrite O1 in I3. injection I3 as <-. auto.
Qed.

Definition ghost_sensor (W : world) {P Z_} (shapes : w_scen W -> list (w_F W)) (g : geo (w_X W) (w_F W) P Z_) (ghost : player) (d : Qc) (f : w_S W) : Prop :=
  forall sc o q, sense W f sc o q = match ghost_sense g id_sense ghost d tt (shapes sc) o q with Ok (_, r) => Ok (f, r) | Err x => Err x end.

Lemma ddel_without {V} (d : list (player * V)) e : NoDup (akeys d) -> ddel d e = without e d.
Proof.
  induction d as [|[k v] d IH]; intro N; [reflexivity|]. unfold akeys in N. cbn [map fst] in N. inversion N as [|? ? N1 N2]; subst. unfold without. cbn [filter fst]. fold (without e d).
  unfold adel; fold (adel (V := V) Nat.eqb). destruct (Nat.eqb_spec k e) as [->|Nk]; cbn [negb]; [symmetry; apply without_id; exact N1|]. f_equal. apply IH. exact N2.
Qed.

Lemma ghost_hidden {X F P Z_} (g : geo X F P Z_) e d sc (o : simobs X F) p u r : NoDup (akeys (o_players o)) -> p <> e -> ghost_sense g id_sense e d tt sc o p = Ok (u, r) -> sees r e = None ->
  r = mkObs (without e (o_players o)) (o_time o) /\ ghost_sense g id_sense e d tt sc (mkObs (without e (o_players o)) (o_time o)) p = Ok (tt, mkObs (without e (o_players o)) (o_time o)).
Proof.
  intros N Np H Hs. assert (W0 : dmem (without e (o_players o)) e = false) by (unfold dmem; rewrite dget_without_e; reflexivity).
  split; [|unfold ghost_sense, id_sense; cbn [o_players]; rewrite W0, orb_true_r; reflexivity].
  unfold ghost_sense, id_sense in H. destruct (Nat.eqb_spec p e) as [|_]; [contradiction|]. cbn [orb] in H.
  assert (Id : sees o e = None -> o = mkObs (without e (o_players o)) (o_time o)).
  { intro E. rewrite without_id; [destruct o; reflexivity|]. intro I1. apply In_keys_dget in I1 as [v E']. unfold sees in E. congruence. }
  destruct (dmem (o_players o) e) eqn:Dm; cbn [negb] in H; [|injection H as _ <-; auto].
  destruct (dgetE (o_players o) p) as [me|]; [|discriminate]. destruct (position_of g (fst me)) as [a|]; [|discriminate].
  destruct (dgetE (o_players o) e) as [it|]; [|discriminate]. destruct (position_of g (fst it)) as [b|]; [|discriminate]. injection H as _ <-.
  destruct (further a b d); [|apply Id; exact Hs]. unfold with_players. rewrite ddel_without by exact N. reflexivity.
Qed.

Lemma ghost_request W (c : ctx W) P Z_ shapes (g : geo (w_X W) (w_F W) P Z_) e d f s0 k s p b : ghost_sensor W shapes g e d f -> started c s0 -> 0 < dt (g_param (c_cfg c)) -> after s0 k s ->
  In p (akeys (c_models c)) -> get_sensor c p = Ok f -> In b (asks s p) -> sense W f (g_scen (c_cfg c)) (ask_seen b) p = Ok (f, ask_given b).
Proof.
  intros GS St D A Hp G Hb. destruct (ai_seen _ _ _ _ (ainv_holds _ _ St D _ _ A) p b Hb) as (i & si & si' & f1 & f2 & ag & ag' & L & Ai & _ & Hact & Ht & Sn & Gs & Se & _).
  destruct (J_holds c s0 i si p St D Ai Hp) as (a1 & _ & [_ _ J3 _]). destruct (J3 _ G) as (f3 & G3 & Wt). rewrite Gs in G3. injection G3 as <-.
  assert (E : f1 = f). { clear - GS Wt. induction Wt as [|fs f1 os full f' o Wt IH Se]; [reflexivity|]. subst f1. rewrite GS in Se. destruct (ghost_sense _ _ _ _ _ _ _ _) as [[? ?]|]; [|discriminate]. congruence. }
  subst f1. rewrite Se. rewrite GS in Se. destruct (ghost_sense _ _ _ _ _ _ _ _) as [[? ?]|]; [|discriminate]. congruence.
Qed.

(** A player with a GhostObsFilter for [e] (around an IdObsFilter) ignores [e] if the filter kept [e] out of everything it was shown, whatever its agent does with its observations. *)
Theorem C135_ghost_ignores : forall W (c : ctx W) P Z_ shapes (g : geo (w_X W) (w_F W) P Z_) d f s0 k s e p, ghost_sensor W shapes g e d f -> started c s0 -> 0 < dt (g_param (c_cfg c)) -> after s0 k s ->
  In p (akeys (c_models c)) -> p <> e -> get_sensor c p = Ok f -> (forall b, In b (asks s p) -> sees (ask_given b) e = None) -> ignores c s e p.
Proof.
  intros W c P Z_ shapes g d f s0 k s e p GS St D A Hp Np G Hid. exists (fun fa hb => fa = hb /\ fst fa = f). split.
  - intros f1 a h b o f' r a1 u a2 x (E & Ef) Ho S1 S2 S3. cbn [fst] in Ef. injection E as <- <-. subst f1. apply in_map_iff in Ho as (q & <- & Hq).
    rewrite (ghost_request W c P Z_ shapes g e d f s0 k s p q GS St D A Hp G Hq) in S1. injection S1 as <- <-.
    pose proof (ghost_request W c P Z_ shapes g e d f s0 k s p q GS St D A Hp G Hq) as Sq. rewrite GS in Sq.
    destruct (ghost_sense g id_sense e d tt _ _ p) as [[t r]|] eqn:Eg; [|discriminate]. injection Sq as Er.
    destruct (request_facts W c s0 k s p q St D A Hq) as (_ & _ & _ & _ & _ & _ & _ & _ & Pr).
    destruct (ghost_hidden g e d _ _ p t _ Pr Np Eg (eq_trans (f_equal (fun y => sees y e) Er) (Hid q Hq))) as [E1 E2]. rewrite <- Er in S2.
    exists f, r, a1, a2. split; [unfold obs_without; rewrite GS, E2, E1; reflexivity|]. auto.
  - intros f1 a Hf _. rewrite G in Hf. injection Hf as <-. auto.
Qed.

(** A world in which agents react to how many players they are shown: the command is that number.  Sensors are GhostObsFilters for player 9 with threshold 1, or IdObsFilters.  Bodies closer than 1 touch. *)
Definition crowd_geo : geo Qc Qc unit unit := mkGeo (fun _ => Ok tt) (fun x => Ok (x, 0)) (fun _ => Ok []) (fun _ _ => Ok 0) (fun _ _ => Ok true) (fun _ => true) (fun f => Ok f).

Definition crowd : world := {|
  w_X := Qc; w_U := Qc; w_M := Qc; w_A := unit; w_G := Qc; w_S := bool; w_F := Qc; w_O := Qc;
  w_E := nat; w_I := unit; w_D := unit; w_scen := unit;
  get_state := fun m => m; footprint := fun m => m; intersects := near; is_dyn := fun _ => false;
  model_step := fun m u d => Ok (m + u * d);
  agent_init := fun a _ _ _ _ _ => Ok a;
  agent_cmds := fun a o => Ok (a, qn (length (o_players o)));
  agent_extra := fun a => Ok (a, None);
  goal_done := fun g x _ => Ok (qleb g x);
  sense := fun f _ o q => if f then match ghost_sense crowd_geo id_sense 9%nat 1 tt [] o q with Ok (_, r) => Ok (f, r) | Err x => Err x end else Ok (f, o);
  id_filter := false; cpu_time := fun _ _ => tt;
  env_query := fun _ _ => []; obstacles := fun _ => [];
  resolve := fun _ p q t a b => ((a, b), Ok (Some (mkRep [p; q] t (Some tt)))); resolve_env := fun p _ t m => (m, Ok None) |}.

Definition crowd_ctx (ghosts : bool) (missions : list (player * Qc)) : ctx crowd := @mkCtx crowd
  (@mkConfig crowd tt (mkParam (qf 1 2) (qf 1 2) (qz 2) (qz 10)) missions true 0%nat)
  [(1%nat, qz 0); (9%nat, qz 20); (2%nat, qf 3 4)] [(1%nat, tt); (9%nat, tt); (2%nat, tt)] [(1%nat, ghosts); (2%nat, ghosts)] [] 0 false [] None.

Definition start_of {W : world} (c : ctx W) : st W := match init_run c new_simulator with Ok s => s | Err _ => mkSt c new_simulator [] end.

Lemma start_of_ok W (c : ctx W) : match ctx_post_init c with Ok tt => true | _ => false end = true -> NoDup (akeys (c_models c)) -> NoDup (akeys (c_players c)) -> NoDup (akeys (g_missions (c_cfg c))) ->
  match init_run c new_simulator with Ok _ => true | Err _ => false end = true -> started c (start_of c).
Proof.
  intros H1 N1 N2 N3 H2. split; [split; [|auto]|].
  - destruct (ctx_post_init c) as [[]|]; [reflexivity|discriminate].
  - exists new_simulator. split; [reflexivity|]. unfold start_of. destruct (init_run c new_simulator); [reflexivity|discriminate].
Qed.

Lemma none_of {A} (x : option A) : match x with None => true | Some _ => false end = true -> x = None.
Proof. destruct x; [discriminate|reflexivity]. Qed.

Ltac nd := cbv; repeat constructor; cbn; intuition congruence.

Ltac start := apply start_of_ok; [vm_compute; reflexivity|nd|nd|nd|vm_compute; reflexivity].

(** No mission, players 1 and 2 ghost player 9: after three iterations both runs agree, players 1 and 2 having collided. *)
Example C135_ghost_ex : let c := crowd_ctx true [] in
  started c (start_of c) /\ started (ctx_without 9%nat c) (start_of (ctx_without 9%nat c)) /\ 0 < dt (g_param (c_cfg c)) /\ after (start_of c) 3 (nth_st (start_of c) 3) /\
  (forall q, q <> 9%nat -> In q (akeys (c_models c)) -> ignores c (nth_st (start_of c) 3) 9%nat q) /\ untouched 9%nat (nth_st (start_of c) 3) /\
  exists z, after (start_of (ctx_without 9%nat c)) 3 z /\ same_others 9%nat (nth_st (start_of c) 3) z /\ length (c_reports (cx z)) = 3%nat.
Proof.
  cbv zeta. set (c := crowd_ctx true []).
  assert (S1 : started c (start_of c)) by start. assert (S2 : started (ctx_without 9%nat c) (start_of (ctx_without 9%nat c))) by start.
  assert (D : 0 < dt (g_param (c_cfg c))) by (vm_compute; reflexivity). assert (A : after (start_of c) 3 (nth_st (start_of c) 3)) by (apply nth_st_after; vm_compute; reflexivity).
  assert (Ig : forall q, q <> 9%nat -> In q (akeys (c_models c)) -> ignores c (nth_st (start_of c) 3) 9%nat q).
  { intros q Nq Kq. assert (G : get_sensor c q = Ok true /\ forallb (fun b => match sees (ask_given (W := crowd) b) 9%nat with None => true | Some _ => false end) (asks (nth_st (start_of c) 3) q) = true).
    { destruct Kq as [<-|[<-|[<-|[]]]]; [|contradiction|]; (split; [reflexivity|vm_compute; reflexivity]). }
    refine (C135_ghost_ignores crowd c _ _ (fun _ => []) crowd_geo 1 true (start_of c) 3 (nth_st (start_of c) 3) 9%nat q _ S1 D A Kq Nq (proj1 G) _); [intros sc o p; reflexivity|].
    intros b Hb. destruct G as [_ G]. rewrite forallb_forall in G. exact (none_of _ (G b Hb)). }
  assert (U : untouched 9%nat (nth_st (start_of c) 3)).
  { assert (X : forallb (fun x => match x with EEnv p _ _ _ _ => negb (Nat.eqb p 9) | EPair p q _ _ => negb (Nat.eqb p 9) && negb (Nat.eqb q 9) | _ => true end) (ev (nth_st (start_of c) 3)) = true) by (vm_compute; reflexivity).
    rewrite forallb_forall in X. split; [intros i t d out H; apply X in H; discriminate|]. intros p q t out H. apply X in H. apply andb_true_iff in H as [H1 H2]. apply negb_true_iff in H1, H2. apply Nat.eqb_neq in H1, H2. auto. }
  repeat (split; [assumption|]).
  destruct (C135_bystander crowd c 9%nat (start_of c) (start_of (ctx_without 9%nat c)) 3 (nth_st (start_of c) 3) S1 S2 D) as (z & Z1 & _ & Z2); [cbn; tauto|exists 1%nat; split; [discriminate|left; reflexivity]|exact A|exact Ig|exact U|].
  exists z. split; [exact Z1|]. split; [exact Z2|]. destruct Z2 as (_ & _ & -> & _). vm_compute. reflexivity.
Qed.

(** Without the ghost filters the others notice player 9 and behave differently. *)
Example C135_noticed_ex : let c := crowd_ctx false [] in
  started c (start_of c) /\ untouched 9%nat (nth_st (start_of c) 1) /\ qs_eqb (map snd (states_log (W := crowd) (nth_st (start_of c) 2) 1%nat)) [0; 3 # 2]%Q = true /\
  qs_eqb (map snd (states_log (W := crowd) (nth_st (start_of (ctx_without 9%nat c)) 2) 1%nat)) [0; 1]%Q = true.
Proof.
  cbv zeta. split; [start|]. split.
  - assert (X : forallb (fun x => match x with EEnv p _ _ _ _ => negb (Nat.eqb p 9) | EPair p q _ _ => negb (Nat.eqb p 9) && negb (Nat.eqb q 9) | _ => true end) (ev (nth_st (start_of (crowd_ctx false [])) 1)) = true) by (vm_compute; reflexivity).
    rewrite forallb_forall in X. split; [intros i t d out H; apply X in H; discriminate|]. intros p q t out H. apply X in H. apply andb_true_iff in H as [H1 H2]. apply negb_true_iff in H1, H2. apply Nat.eqb_neq in H1, H2. auto.
  - split; vm_compute; reflexivity.
Qed.

(** With missions the run without player 9 may stop earlier: player 9's goal keeps the other run going. *)
Example C135_longer_ex : let c := crowd_ctx true [(1%nat, qz 1); (9%nat, qz 100)] in
  started c (start_of c) /\ after (start_of c) 3 (nth_st (start_of c) 3) /\ after (start_of (ctx_without 9%nat c)) 1 (nth_st (start_of (ctx_without 9%nat c)) 1) /\
  c_term (cx (nth_st (start_of c) 1)) = false /\ c_term (cx (nth_st (start_of (ctx_without 9%nat c)) 1)) = true.
Proof. cbv zeta. split; [start|]. split; [apply nth_st_after; vm_compute; reflexivity|]. split; [apply nth_st_after; vm_compute; reflexivity|]. split; vm_compute; reflexivity. Qed.

(** If player 9 alone has a mission, its arrival stops the run, and without it nothing does. *)
Example C135_only_mission_ex : let c := crowd_ctx true [(9%nat, qz 20)] in
  started c (start_of c) /\ c_term (cx (nth_st (start_of c) 1)) = true /\ c_term (cx (nth_st (start_of (ctx_without 9%nat c)) 1)) = false.
Proof. cbv zeta. split; [start|]. split; vm_compute; reflexivity. Qed.
