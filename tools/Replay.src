(** Replaying a simulation from its log. *)
From Coq Require Import QArith Qcanon ZArith List Bool Arith Lia.
From Verif Require Import Base Num SeqModel SimulatorModel SimulatorSpec DictLemmas SimulatorWorld SimulatorProofs5 SimulatorProofs6 SimulatorProofs7 ReplayModel ReplaySpec ReplayProofs.
Import ListNotations.
Open Scope Qc_scope.
(* BODY *)

(** ** C131  Replays *)

(** A finished simulation can be replayed: with NPAgents made from the logged commands and the default sensors, whatever the first agents and sensors were, the same models, missions, scenario and parameters go through the same states and collisions, and the same commands are logged. *)
Theorem C131_replay : forall W (c : ctx W) m fuel sf, valid_ctx c -> unused m -> 0 < dt (g_param (c_cfg c)) ->
  run fuel m c = Some (Ok sf) ->
  forall cpu (m' : simulator (replay_world W cpu)) seed, unused m' ->
  exists sr, run fuel m' (replay_context W cpu c (c_log (cx sf)) seed) = Some (Ok sr) /\ same_happened sf sr.
Proof. intros W c m fuel sf V U D R cpu m' seed U'. apply (replay_ok cpu c m m' seed fuel sf); assumption. Qed.

Lemma C131_finished_models W (c : ctx W) m fuel sf : valid_ctx c -> unused m -> 0 < dt (g_param (c_cfg c)) -> run fuel m c = Some (Ok sf) -> akeys (c_models (cx sf)) = akeys (c_models c).
Proof.
  intros V U D H. unfold run in H. destruct (init_run c m) as [s0|] eqn:E0; [|discriminate]. assert (Sd : started c s0) by (split; [exact V|eauto]).
  destruct (loop fuel s0) as [[s|]|] eqn:El; [|discriminate|discriminate]. destruct (loop_after s0 fuel 0 s0 s (after_0 s0) El) as (k & A & _). pose proof (started_facts _ _ _ _ Sd D A) as F.
  assert (N : NoDup (akeys (c_models (cx s)))) by (rewrite (fa_models _ _ _ _ F); apply V).
  destruct (write_logs_ok s (fa_inv _ _ _ _ F) N) as (sf' & Wf & _ & _ & (lg & Wcx) & _). rewrite Wf in H. injection H as ->. rewrite Wcx. exact (fa_models _ _ _ _ F).
Qed.

Lemma loop_more W r : forall fuel n (s : st W), loop fuel s = Some r -> loop (fuel + n) s = Some r.
Proof. induction fuel as [|f IH]; intros n s H; cbn [loop Nat.add] in *. - destruct n; cbn [loop]; destruct (c_term (cx s)); try exact H; discriminate. - destruct (c_term (cx s)); [exact H|]. destruct (step s); [apply IH; exact H|exact H]. Qed.

Lemma run_more W (m : simulator W) c r fuel n : run fuel m c = Some r -> run (fuel + n) m c = Some r.
Proof. unfold run. destruct (init_run c m) as [s0|]; [|auto]. destruct (loop fuel s0) as [x|] eqn:E; [|discriminate]. rewrite (loop_more W _ _ n _ E). auto. Qed.

(** Agents and sensors matter only through the commands: two simulations of the same models, missions, scenario and parameters, with any agents and sensors, in which the same commands were logged at the same times went the same way. *)
Theorem C131_commands_decide : forall W (c d : ctx W) m n fuel fuel' sf sg, valid_ctx c -> valid_ctx d -> unused m -> unused n -> 0 < dt (g_param (c_cfg c)) ->
  run fuel m c = Some (Ok sf) -> run fuel' n d = Some (Ok sg) ->
  g_scen (c_cfg d) = g_scen (c_cfg c) -> g_param (c_cfg d) = g_param (c_cfg c) -> g_missions (c_cfg d) = g_missions (c_cfg c) ->
  c_models d = c_models c -> akeys (c_players d) = akeys (c_players c) -> c_time d = c_time c -> c_term d = c_term c -> c_reports d = c_reports c -> c_first d = c_first c ->
  (forall p l k, dget (c_log (cx sf)) p = Some l -> dget (c_log (cx sg)) p = Some k -> pl_commands k = pl_commands l) ->
  time sg = time sf /\ c_models (cx sg) = c_models (cx sf) /\ akeys (c_players (cx sg)) = akeys (c_players (cx sf)) /\
  c_reports (cx sg) = c_reports (cx sf) /\ c_first (cx sg) = c_first (cx sf) /\
  forall p l k, In p (akeys (c_models (cx sf))) -> dget (c_log (cx sf)) p = Some l -> dget (c_log (cx sg)) p = Some k -> iter (pl_states k) = iter (pl_states l).
Proof.
  intros W c d m n fuel fuel' sf sg Vc Vd Um Un D Rc Rd E1 E2 E3 E4 E5 E6 E7 E8 E9 L.
  apply (run_more _ _ _ _ _ fuel') in Rc. apply (run_more _ _ _ _ _ fuel) in Rd. rewrite (Nat.add_comm fuel') in Rd.
  set (cpu := cpu_time W). set (m' := @new_simulator (replay_world W cpu)).
  destruct (C131_replay_pf W c m _ sf Vc Um D Rc cpu m' 0%nat eq_refl) as (sr & R1 & S1).
  assert (D' : 0 < dt (g_param (c_cfg d))) by (rewrite E2; exact D).
  destruct (C131_replay_pf W d n _ sg Vd Un D' Rd cpu m' 0%nat eq_refl) as (sr' & R2 & S2).
  destruct S1 as (A1 & A2 & A3 & A4 & A5 & A6). destruct S2 as (B1 & B2 & B3 & B4 & B5 & B6).
  assert (K : akeys (c_models (cx sf)) = akeys (c_models c)).
  { exact (C131_finished_models W c m _ sf Vc Um D Rc). }
  assert (K' : akeys (c_models (cx sg)) = akeys (c_models d)).
  { exact (C131_finished_models W d n _ sg Vd Un D' Rd). }
  assert (E : replay_context W cpu d (c_log (cx sg)) 0%nat = replay_context W cpu c (c_log (cx sf)) 0%nat).
  { unfold replay_context. rewrite E1, E2, E3, E4, E5, E6, E7, E8, E9. f_equal. apply map_ext_in. intros p Hp. f_equal.
    assert (Hm : In p (akeys (c_models c))) by (apply (proj1 (SimulatorProofs5.valid_ctx_keys c Vc)); exact Hp).
    destruct (A6 p) as (l & _ & Hl & _); [rewrite K; exact Hm|]. destruct (B6 p) as (k & _ & Hk & _); [rewrite K', E4; exact Hm|].
    rewrite Hl, Hk. exact (L p l k Hl Hk). }
  rewrite E, R1 in R2. assert (IS : forall x y : st (replay_world W cpu), Some (Ok x) = Some (Ok y) -> x = y) by (clear; congruence). apply IS in R2. subst sr'.
  rewrite <- A1, <- A2, <- A3, <- A4, <- A5. split; [symmetry; exact B1|]. split; [symmetry; exact B2|]. split; [symmetry; exact B3|]. split; [symmetry; exact B4|]. split; [symmetry; exact B5|].
  intros p l k Hp Hl Hk. rewrite A2 in Hp. destruct (A6 p Hp) as (l1 & x & G1 & G2 & G3 & _). destruct (B6 p) as (k1 & y & H1 & H2 & H3 & _); [rewrite K', E4, <- K; exact Hp|].
  congruence.
Qed.

(** Not vacuous: a run of three players, one of which reaches its goal, in which a collision was reported, and its replay. *)
Example C131_ex : exists sf sr, run 7 new_simulator ctx1 = Some (Ok sf) /\
  run 7 (@new_simulator (replay_world line (fun _ t => t))) (replay_context line (fun _ t => t) ctx1 (c_log (cx sf)) 5%nat) = Some (Ok sr) /\
  valid_ctx ctx1 /\ 0 < dt (g_param (c_cfg ctx1)) /\ same_happened sf sr /\
  c_reports (cx sr) <> [] /\ dget (c_players (cx sr)) 1%nat = None /\
  exists r, dget (c_log (cx sr)) 2%nat = Some r /\ map fst (iter (pl_commands r)) = [qz 0; qz 1; qz 2; qz 3].
Proof.
  destruct (get_ok (fun s => match c_reports (cx s) with [] => false | _ => true end && negb (dmem (c_players (cx s)) 1%nat) && match dget (c_log (cx s)) 2%nat with Some pl => qs_eqb (map fst (iter (pl_commands pl))) [0#1; 1#1; 2#1; 3#1]%Q | _ => false end)
    (run 7 new_simulator ctx1)) as (sf & E1 & E2); [vm_compute; reflexivity|].
  assert (V : valid_ctx ctx1) by apply started1. assert (D := dt1).
  destruct (C131_replay line ctx1 new_simulator 7 sf V eq_refl D E1 (fun _ t => t) new_simulator 5%nat eq_refl) as (sr & R & S).
  exists sf, sr. split; [exact E1|]. split; [exact R|]. split; [exact V|]. split; [exact D|]. split; [exact S|].
  destruct S as (_ & _ & S3 & S4 & _ & S6). apply andb_true_iff in E2 as [E2 E3]. apply andb_true_iff in E2 as [E2 E4].
  split; [rewrite S4; destruct (c_reports (cx sf)); [discriminate E2|discriminate]|]. split.
  { apply dget_None. rewrite S3. apply dget_None. unfold dmem in E4. destruct (dget (c_players (cx sf)) 1%nat); [discriminate E4|reflexivity]. }
  apply get_some in E3 as (pl & E3 & E5). apply qs_eqb_eq in E5.
  destruct (S6 2%nat) as (l & r & G1 & G2 & _ & G3).
  { rewrite (C131_finished_models line ctx1 new_simulator 7 sf V eq_refl D E1). right. left. reflexivity. }
  exists r. split; [exact G2|]. rewrite E3 in G1. injection G1 as <-.
  rewrite G3. exact E5.
Qed.
