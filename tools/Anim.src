(** What animations show. *)
From Coq Require Lqa.
From Coq Require Import String Reals Lra Psatz QArith Qround Qcanon ZArith List Bool Arith Lia.
From Verif Require Import Base Num R2 SeqModel SeqSpec SeqProofs SeqProofs2 DictLemmas LaneModel LaneProofs ShapeModel EvalModel SimulatorModel SimulatorSpec
  SimulatorProofs SimulatorProofs2 SimulatorProofs3 SimulatorProofs4 SimulatorProofs5 SimulatorProofs6 SimulatorProofs7 SimulatorMain SimulatorWorld ScenarioModel ScenarioMain AnimModel AnimSpec AnimProofs AnimRun.
Import SimulatorModel.
Import ListNotations.
Local Open Scope R_scope.
Local Open Scope string_scope.

(* BODY *)

(** ** C92 The camera *)

(** "auto": all players are in view, at least 15 from the sides, and each side is 15 away
    from some player. *)
Theorem C92_auto : forall players, players <> [] ->
  exists x0 x1 y0 y1, adjust_axes_limits (Name "auto") (Some players) = Ok (View (Fn x0) (Fn x1) (Fn y0) (Fn y1)) /\
    (forall name s, In (name, s) players -> sees (View (Fn x0) (Fn x1) (Fn y0) (Fn y1)) (ps_pos s) 15) /\
    (exists name s, In (name, s) players /\ fst (ps_pos s) = x0 + 15) /\ (exists name s, In (name, s) players /\ fst (ps_pos s) = x1 - 15) /\
    (exists name s, In (name, s) players /\ snd (ps_pos s) = y0 + 15) /\ (exists name s, In (name, s) players /\ snd (ps_pos s) = y1 - 15).
Proof.
  intros players N. unfold adjust_axes_limits. cbn [String.eqb Ascii.eqb Bool.eqb].
  destruct players as [|e0 r]; [contradiction|]. set (l := e0 :: r) in *. clearbody l. clear e0 r.
  unfold approximate_bounding_box_players. rewrite !map_map.
  destruct (bb_all (map (fun e => fst (ps_pos (snd e))) l)) as (a & b & F & I1 & I2 & L & A); [intro E; apply N, (map_eq_nil _ _ E)|].
  destruct (bb_all (map (fun e => snd (ps_pos (snd e))) l)) as (c & d & F' & I1' & I2' & L' & A'); [intro E; apply N, (map_eq_nil _ _ E)|].
  rewrite F, F'. cbn [fst snd ext_ltb]. rewrite (proj2 (ltb_false b a)) by lra. rewrite (proj2 (ltb_false d c)) by lra. cbn [bind fst snd ext_add].
  exists (a + -10 + -5), (b + 10 + 5), (c + -10 + -5), (d + 10 + 5). split; [destruct l; [contradiction|reflexivity]|].
  assert (G : forall (f : string * pstate -> R) v, In v (map f l) -> exists name s, In (name, s) l /\ f (name, s) = v).
  { intros f v H. apply in_map_iff in H as ([n s] & H1 & H2). eauto. }
  split; [|split; [|split; [|split]]].
  - intros name s H. pose proof (A _ (in_map (fun e => fst (ps_pos (snd e))) l _ H)) as X. pose proof (A' _ (in_map (fun e => snd (ps_pos (snd e))) l _ H)) as Y. cbn [fst snd] in X, Y. unfold sees. lra.
  - destruct (G _ _ I1) as (n & s & H & E). cbn [snd] in E. exists n, s. split; [exact H|lra].
  - destruct (G _ _ I2) as (n & s & H & E). cbn [snd] in E. exists n, s. split; [exact H|lra].
  - destruct (G _ _ I1') as (n & s & H & E). cbn [snd] in E. exists n, s. split; [exact H|lra].
  - destruct (G _ _ I2') as (n & s & H & E). cbn [snd] in E. exists n, s. split; [exact H|lra].
Qed.

Theorem C92_auto_empty : adjust_axes_limits (Name "auto") None = Err ZValueError /\ adjust_axes_limits (Name "auto") (Some []) = Err ZValueError.
Proof. split; reflexivity. Qed.

(** The name of a player: a square of 70 whose centre is the position of the player in 1.5
    seconds, but in each direction at most 70/3 ahead, so that the player is always in
    view, at least 35/3 from the sides. *)
Theorem C92_follow : forall name players s v, name <> "auto" -> aget String.eqb players name = Some s -> ps_vx s = Some v ->
  exists cx cy, adjust_axes_limits (Name name) (Some players) = Ok (View (Fn (cx - 35)) (Fn (cx + 35)) (Fn (cy - 35)) (Fn (cy + 35))) /\
    sees (View (Fn (cx - 35)) (Fn (cx + 35)) (Fn (cy - 35)) (Fn (cy + 35))) (ps_pos s) (35 / 3) /\
    let ahead := vscale (3 / 2) (v * cos (ps_heading s), v * sin (ps_heading s)) in
    let shift := vsub (cx, cy) (ps_pos s) in
    (Rabs (fst ahead) <= 70 / 3 -> fst shift = fst ahead) /\ (Rabs (snd ahead) <= 70 / 3 -> snd shift = snd ahead) /\
    (70 / 3 < Rabs (fst ahead) -> Rabs (fst shift) = 70 / 3 /\ 0 <= fst shift * fst ahead) /\
    (70 / 3 < Rabs (snd ahead) -> Rabs (snd shift) = 70 / 3 /\ 0 <= snd shift * snd ahead).
Proof.
  intros name players s v N H V. unfold adjust_axes_limits. rewrite (proj2 (String.eqb_neq _ _) N). unfold agetE. rewrite H. cbn [bind]. rewrite V.
  set (a := vscale (3 / 2) (v * cos (ps_heading s), v * sin (ps_heading s))).
  replace (- (35) + 35 / 3) with (- (70 / 3)) by lra. replace (35 - 35 / 3) with (70 / 3) by lra.
  eexists _, _. split; [reflexivity|]. unfold sees, vsub. cbv zeta. cbn [fst snd].
  destruct (clip_cases (fst a) (70 / 3) ltac:(lra)) as (X1 & X2 & X3 & X4). destruct (clip_cases (snd a) (70 / 3) ltac:(lra)) as (Y1 & Y2 & Y3 & Y4).
  set (cx := clip (fst a) (- (70 / 3)) (70 / 3)) in *. set (cy := clip (snd a) (- (70 / 3)) (70 / 3)) in *. clearbody cx cy.
  replace (fst (ps_pos s) + cx - fst (ps_pos s)) with cx by ring. replace (snd (ps_pos s) + cy - snd (ps_pos s)) with cy by ring.
  split; [|split; [exact X3|split; [exact Y3|split; [intro H'; split; [exact (X4 H')|exact X2]|intro H'; split; [exact (Y4 H')|exact Y2]]]]].
  clear X3 X4 Y3 Y4. unfold Rabs in X1, Y1. destruct (Rcase_abs cx); destruct (Rcase_abs cy); lra.
Qed.

(** When the player cannot be followed an exception is raised, never a fallback. *)
Theorem C92_follow_fails : forall name, name <> "auto" ->
  adjust_axes_limits (Name name) None = Err PyTypeError /\
  (forall players, ~ In name (akeys players) -> adjust_axes_limits (Name name) (Some players) = Err PyKeyError) /\
  (forall players s, aget String.eqb players name = Some s -> ps_vx s = None -> adjust_axes_limits (Name name) (Some players) = Err PyAttributeError).
Proof.
  intros name N. unfold adjust_axes_limits. rewrite (proj2 (String.eqb_neq _ _) N). split; [reflexivity|]. split.
  - intros players H. unfold agetE. assert (E : aget String.eqb players name = None).
    { induction players as [|[k x] r IH]; [reflexivity|]. change (aget String.eqb ((k, x) :: r) name) with (if String.eqb k name then Some x else aget String.eqb r name). destruct (String.eqb_spec k name) as [->|K]; [destruct H; left; reflexivity|]. apply IH. intro C. apply H. right. exact C. }
    rewrite E. reflexivity.
  - intros players s H V. unfold agetE. rewrite H. cbn [bind]. rewrite V. reflexivity.
Qed.

(** The documented alternative spelling "" of "auto" fails, and the fallback to
    ax.autoscale() is never reached. *)
Theorem C92_fallback_refuted : (forall players, ~ In "" (akeys players) -> adjust_axes_limits (Name "") (Some players) = Err PyKeyError) /\
  (forall plot_limits players_states, adjust_axes_limits plot_limits players_states <> Ok Autoscale).
Proof.
  split; [intros players; apply (proj1 (proj2 (C92_follow_fails "" ltac:(discriminate))))|].
  intros plot_limits ps. unfold adjust_axes_limits. destruct plot_limits as [s|l|]; [|destruct l as [|x [|y r]]; cbn [item bind]; try discriminate; try (destruct x as [|? [|? ?]]; cbn [item bind]; try discriminate); try (destruct y as [|? [|? ?]]; cbn [item bind]; discriminate)|discriminate].
  - destruct (String.eqb s "auto").
    + destruct ps as [[|e r]|]; try discriminate. unfold approximate_bounding_box_players. repeat (destruct (ext_ltb _ _); cbn [bind]; try discriminate).
    + destruct ps as [l|]; cbn [bind]; [|discriminate]. unfold agetE. destruct (aget String.eqb l s) as [x|]; cbn [bind]; [|discriminate]. destruct (ps_vx x); discriminate.
Qed.

(** Given limits are used as they are. *)
Theorem C92_fixed : forall x0 x1 y0 y1 states, adjust_axes_limits (Fixed [[x0; x1]; [y0; y1]]) states = Ok (View (Fn x0) (Fn x1) (Fn y0) (Fn y1)).
Proof. reflexivity. Qed.

Example C92_ex : let ps := [("P1", mkPS (0, 0) 0 (Some 10)); ("P2", mkPS (50, 20) PI (Some 30)); ("P3", mkPS (3, 3) 0 None)] in
  (exists v, adjust_axes_limits (Name "auto") (Some ps) = Ok v /\ sees v (50, 20) 15) /\
  (exists v, adjust_axes_limits (Name "P2") (Some ps) = Ok v /\ sees v (50, 20) (35 / 3)) /\
  adjust_axes_limits (Name "P3") (Some ps) = Err PyAttributeError.
Proof.
  intro ps. split; [|split].
  - destruct (C92_auto ps ltac:(discriminate)) as (x0 & x1 & y0 & y1 & E & A & _). eexists. split; [exact E|]. apply (A "P2" (mkPS (50, 20) PI (Some 30))). right. left. reflexivity.
  - destruct (C92_follow "P2" ps (mkPS (50, 20) PI (Some 30)) 30 ltac:(discriminate) eq_refl eq_refl) as (cx & cy & E & A & _). eexists. split; [exact E|exact A].
  - apply (proj2 (proj2 (C92_follow_fails "P3" ltac:(discriminate))) ps (mkPS (3, 3) 0 None)); reflexivity.
Qed.

(** ** C93 The frames *)
Local Open Scope Qc_scope.

Lemma lookup_all : forall V (l : list (nat * V)), NoDup (akeys l) -> rmapM (fun p => Base.bind (dgetE l p) (fun e => Ok (p, e))) (akeys l) = Ok l.
Proof.
  intros V l N. assert (G : forall r, incl r l -> rmapM (fun p => Base.bind (dgetE l p) (fun e => Ok (p, e))) (akeys r) = Ok r).
  { induction r as [|[k x] r IH]; intro I; [reflexivity|]. change (akeys ((k, x) :: r)) with (k :: akeys r). cbn [rmapM]. assert (E : dget l k = Some x) by (apply dget_NoDup_In; [exact N|apply I; left; reflexivity]).
    rewrite (proj2 (agetE_Ok l k x) E). cbn [Base.bind]. rewrite IH; [reflexivity|]. intros e H. apply I. right. exact H. }
  apply G, incl_refl.
Qed.

Lemma keys_at : forall W mulX addX (log : list (player * plog W)) t r, simlog_at_interp mulX addX log t = Ok r -> akeys r = akeys log.
Proof.
  intros W mulX addX log t. induction log as [|[p pl] l IH]; intros r H; unfold simlog_at_interp in *; cbn [rmapM] in H.
  - injection H as <-. reflexivity.
  - destruct (plog_at_interp mulX addX pl t); [|discriminate]. destruct (rmapM _ l) as [b|] eqn:E; [|discriminate]. injection H as <-. unfold akeys. cbn [map fst]. f_equal. apply IH. reflexivity.
Qed.

Lemma update_shows : forall W mulX addX (log : list (player * plog W)) t, made_log log -> known_from t log ->
  exists pic, simlog_at_interp mulX addX log t = Ok pic /\ update_plot mulX addX log (akeys log) t = Ok pic /\ shows mulX addX log t pic.
Proof.
  intros W mulX addX log t [N O] K. destruct (C30_at_interp_defined_pf W mulX addX log t O K) as [pic E]. exists pic. split; [exact E|].
  pose proof (keys_at _ _ _ _ _ _ E) as KE. split.
  - unfold update_plot. rewrite E. cbn [Base.bind]. rewrite <- KE. apply lookup_all. rewrite KE. exact N.
  - pose proof (C30_at_interp_contract_pf W mulX addX log t pic O E) as C. unfold shows. clear - C. induction C as [|a b l1 l2 H C IH]; constructor; [|exact IH]. destruct H as (H1 & H2 & H3 & _). auto.
Qed.

Lemma mapM_nth : forall A B (f : A -> result B) l ys k y, rmapM f l = Ok ys -> nth_error ys k = Some y -> exists x, nth_error l k = Some x /\ f x = Ok y.
Proof.
  intros A B f l. induction l as [|a l IH]; intros ys k y H Y; cbn [rmapM] in H; [injection H as <-; destruct k; discriminate|].
  destruct (f a) as [b|] eqn:E; [|discriminate]. destruct (rmapM f l) as [bs|]; [|discriminate]. injection H as <-.
  destruct k as [|k]; [injection Y as <-; exists a; auto|]. exact (IH bs k y eq_refl Y).
Qed.

Lemma frame_count_nonneg : forall x y, 0 <= x -> 0 < y -> (0 <= floor_div x y)%Z.
Proof.
  intros x y X Y. unfold floor_div. change 0%Z with (Qfloor 0). apply Qfloor_resp_le.
  assert (Z : 0 <= x / y). { rewrite Qc_le_Q, Qc_div_this, Qc_0_this. apply Qle_shift_div_l; [exact Y|]. rewrite Qmult_0_l. exact X. }
  exact Z.
Qed.

Lemma nth_error_lt : forall A (l : list A) i x, nth_error l i = Some x -> (i < length l)%nat.
Proof. intros A l i x H. apply nth_error_Some. rewrite H. discriminate. Qed.

Lemma step_pos : forall dt, 0 < dt -> 0 < frame_step dt /\ frame_step dt <= 1.
Proof.
  intros dt H. unfold frame_step. pose proof (qmin_pos (qz 1000) dt ltac:(reflexivity) H) as P. destruct (qmin_le (qz 1000) dt) as [L _]. set (m := qmin (qz 1000) dt) in *. clearbody m.
  split.
  - rewrite Qc_lt_Q, Qc_div_this, Qc_0_this. apply Qlt_shift_div_l; [reflexivity|]. rewrite Qmult_0_l. exact P.
  - rewrite Qc_le_Q, Qc_div_this, Qc_1_this. apply Qle_shift_div_r; [reflexivity|]. rewrite Qmult_1_l. exact L.
Qed.

(** What a log that starts at time 0 becomes: a first picture of time 0 and then one frame
    every [frame_step dt] seconds of simulated time, as many as fit in the duration [D],
    each showing every player where the log has them at that time. *)
Theorem C93_frames : forall W mulX addX (log : list (player * plog W)) dt D, made_log log -> known_from 0 log ->
  simlog_init_time log = Ok 0 -> simlog_last_time log = Ok D -> 0 < D -> 0 < dt ->
  exists first frames fps, create_animation mulX addX log dt = Ok (first, frames, fps) /\ shows mulX addX log 0 first /\
    (qn (length frames) * frame_step dt <= D /\ D < (qn (length frames) + 1) * frame_step dt) /\
    forall k t pic, nth_error frames k = Some (t, pic) -> t = qn k * frame_step dt /\ shows mulX addX log t pic.
Proof.
  intros W mulX addX log dt D M K I L P Q. destruct (step_pos dt Q) as [SP _]. unfold create_animation. rewrite I, L. cbn [Base.bind]. rewrite (proj2 (qltb_lt 0 D) P). cbn [negb].
  pose proof (qmin_pos (qz 1000) dt ltac:(reflexivity) Q) as DP. assert (NE : qeqb (qmin (qz 1000) dt) 0 = false) by (apply qeqb_neq; intro C; rewrite C in DP; revert DP; apply Qlt_irrefl). rewrite NE.
  fold (frame_step dt). replace (D - 0) with D by ring. pose proof (frame_count_nonneg D (frame_step dt) (Qclt_le_weak _ _ P) SP) as FC. pose proof (floor_div_spec D (frame_step dt) SP) as FS. set (n := floor_div D (frame_step dt)) in *. clearbody n.
  rewrite (proj2 (Z.ltb_ge n 0) FC). destruct (update_shows W mulX addX log 0 M K) as (first & E & _ & S0). rewrite E. cbn [Base.bind]. rewrite (keys_at _ _ _ _ _ _ E).
  assert (T : forall frame, qn frame * qmin (qz 1000) dt / qz 1000 = qn frame * frame_step dt) by (intro f; unfold frame_step, Qcdiv; ring).
  assert (A : forall k, exists pic, update_plot mulX addX log (akeys log) (qn k * frame_step dt) = Ok pic /\ shows mulX addX log (qn k * frame_step dt) pic).
  { intro k. destruct (update_shows W mulX addX log (qn k * frame_step dt) M) as (pic & _ & U1 & U2); [|eauto]. intros p pl H. destruct (K p pl H) as (K1 & (u & U1 & U2) & (w & W1 & W2)). assert (Z : 0 <= qn k * frame_step dt).
    { rewrite <- (Qcmult_0_l (frame_step dt)). apply Qcmult_le_compat_r; [|apply Qclt_le_weak; exact SP]. unfold qn. rewrite Qc_le_Q, Qc_qz_this, Qc_0_this. change (inject_Z 0 <= inject_Z (Z.of_nat k))%Q. rewrite <- Zle_Qle. lia. }
    split; [exact K1|]. split; [exists u|exists w]; (split; [assumption|eapply Qcle_trans; eassumption]). }
  set (f := fun frame => Base.bind (update_plot mulX addX log (akeys log) (qn frame * qmin (qz 1000) dt / qz 1000)) (fun p => Ok (qn frame * qmin (qz 1000) dt / qz 1000, p))).
  change (exists first0 frames fps, Base.bind (rmapM f (List.seq 0 (Z.to_nat n))) (fun fr => Ok (first, fr, qceil (qz 1000 / qmin (qz 1000) dt))) = Ok (first0, frames, fps) /\ shows mulX addX log 0 first0 /\
    (qn (length frames) * frame_step dt <= D /\ D < (qn (length frames) + 1) * frame_step dt) /\
    forall k t pic, nth_error frames k = Some (t, pic) -> t = qn k * frame_step dt /\ shows mulX addX log t pic).
  destruct (rmapM_total f (List.seq 0 (Z.to_nat n))) as [frames F]. { intros k _. unfold f. rewrite T. destruct (A k) as (pic & U & _). rewrite U. eexists. reflexivity. }
  rewrite F. cbn [Base.bind]. exists first, frames, (qceil (qz 1000 / qmin (qz 1000) dt)). split; [reflexivity|]. split; [exact S0|].
  assert (LE : length frames = Z.to_nat n) by (rewrite (rmapM_length _ _ _ F), seq_length; reflexivity).
  split. { rewrite LE. unfold qn. rewrite Z2Nat.id by exact FC. exact FS. }
  intros k t pic H. destruct (mapM_nth _ _ _ _ _ _ _ F H) as (x & X & Y). assert (x = k). { pose proof (nth_error_nth _ _ 0%nat X) as N. rewrite seq_nth in N by (apply nth_error_lt in X; rewrite seq_length in X; exact X). symmetry. exact N. } subst x.
  unfold f in Y. rewrite T in Y. destruct (A k) as (pic' & U & S). rewrite U in Y. cbn [Base.bind] in Y. injection Y as <- <-. auto.
Qed.

(** The last frame of such an animation is at least one step before the end, so the final
    state (a collision, a goal reached) is never shown. *)
Theorem C93_last_instant_refuted : forall W mulX addX (log : list (player * plog W)) dt D, made_log log -> known_from 0 log ->
  simlog_init_time log = Ok 0 -> simlog_last_time log = Ok D -> 0 < D -> 0 < dt ->
  exists first frames fps, create_animation mulX addX log dt = Ok (first, frames, fps) /\ forall t pic, In (t, pic) frames -> t <= D - frame_step dt.
Proof.
  intros W mulX addX log dt D M K I L P Q. destruct (C93_frames W mulX addX log dt D M K I L P Q) as (first & frames & fps & E & _ & (A & _) & N). exists first, frames, fps. split; [exact E|].
  intros t pic H. apply In_nth_error in H as [k H]. destruct (N k t pic H) as [-> _]. destruct (step_pos dt Q) as [SP _]. apply nth_error_lt in H. assert (B : qn k + 1 <= qn (length frames)) by (rewrite <- qn_S; unfold qn; rewrite Qc_le_Q, !Qc_qz_this, <- Zle_Qle; lia).
  pose proof (Qcmult_le_compat_r _ _ (frame_step dt) B (Qclt_le_weak _ _ SP)) as C. qlra.
Qed.

(** Frames are taken from time 0 although the log may begin later: the frames of a log with
    one player whose commands start after 0 cannot be made. *)
Theorem C93_late_start_refuted : forall W mulX addX p (pl : plog W) dt T0 T1,
  obtainable (pl_states pl) -> obtainable (pl_commands pl) -> obtainable (pl_extra pl) -> obtainable (pl_info pl) -> known_from T0 [(p, pl)] ->
  simlog_init_time [(p, pl)] = Ok T0 -> simlog_last_time [(p, pl)] = Ok T1 -> 0 < dt -> frame_step dt <= T1 - T0 ->
  (forall u, In u (tss (pl_commands pl)) -> 0 < u) -> create_animation mulX addX [(p, pl)] dt = Err UndefinedAtTime.
Proof.
  intros W mulX addX p pl dt T0 T1 O1 O2 O3 O4 K I L Q S C. destruct (step_pos dt Q) as [SP _]. unfold create_animation. rewrite I, L. cbn [Base.bind]. assert (TT : T0 < T1) by qlra. rewrite (proj2 (qltb_lt T0 T1) TT). cbn [negb].
  pose proof (qmin_pos (qz 1000) dt ltac:(reflexivity) Q) as DP. assert (NE : qeqb (qmin (qz 1000) dt) 0 = false) by (apply qeqb_neq; intro X; rewrite X in DP; revert DP; apply Qlt_irrefl). rewrite NE.
  fold (frame_step dt). pose proof (frame_count_nonneg (T1 - T0) (frame_step dt) ltac:(qlra) SP) as FC. pose proof (floor_div_spec (T1 - T0) (frame_step dt) SP) as FS. set (n := floor_div (T1 - T0) (frame_step dt)) in *. clearbody n.
  rewrite (proj2 (Z.ltb_ge n 0) FC). assert (M : made_log [(p, pl)]) by (split; [constructor; [intros []|constructor]|intros p' pl' [[= <- <-]|[]]; auto]). destruct (update_shows W mulX addX [(p, pl)] T0 M K) as (first & E & _ & _). rewrite E. cbn [Base.bind].
  assert (NZ : n <> 0%Z). { intro X. subst n. destruct FS as [_ FS]. change (qz 0) with 0 in FS. qlra. }
  destruct (Z.to_nat n) as [|m] eqn:ZN; [lia|]. cbn [List.seq rmapM]. unfold update_plot. change (qn 0) with 0. replace (0 * qmin (qz 1000) dt / qz 1000) with 0 by (unfold Qcdiv; ring).
  destruct (K p pl (or_introl eq_refl)) as (K1 & (u & U & _) & _). rewrite C30_undefined_before_first_command_pf; [reflexivity|assumption..| |exact C]. intro X. rewrite X in U. destruct U.
Qed.

(** Logs that cannot be animated: none of the players have states, nothing lasts, or the
    frame interval is not positive. *)
Theorem C93_refused : forall W mulX addX dt,
  create_animation mulX addX ([] : list (player * plog W)) dt = Err PyValueError /\
  (forall (log : list (player * plog W)) T, simlog_init_time log = Ok T -> simlog_last_time log = Ok T -> create_animation mulX addX log dt = Err PyValueError) /\
  (forall (log : list (player * plog W)) T0 T1, simlog_init_time log = Ok T0 -> simlog_last_time log = Ok T1 -> T0 < T1 -> create_animation mulX addX log 0 = Err PyZeroDivisionError).
Proof.
  intros W mulX addX dt. split; [reflexivity|]. split.
  - intros log T I L. unfold create_animation. rewrite I, L. cbn [Base.bind]. assert (E : qltb T T = false) by (apply qltb_ge, Qcle_refl). rewrite E. reflexivity.
  - intros log T0 T1 I L P. unfold create_animation. rewrite I, L. cbn [Base.bind]. rewrite (proj2 (qltb_lt T0 T1) P). reflexivity.
Qed.

(** Every run that starts at time 0 with an empty log and takes at least two steps can be
    animated, up to its last or last but one instant. *)
Theorem C93_run : forall W mulX addX (c : ctx W) m fuel sf dt, valid_ctx c -> unused m -> 0 < SimulatorModel.dt (g_param (c_cfg c)) -> c_time c = 0 -> c_log c = [] -> c_models c <> [] ->
  run fuel m c = Some (Ok sf) -> SimulatorModel.dt (g_param (c_cfg c)) < time sf -> 0 < dt ->
  exists D first frames fps, simlog_last_time (c_log (cx sf)) = Ok D /\ time sf - SimulatorModel.dt (g_param (c_cfg c)) <= D /\ D <= time sf /\
    create_animation mulX addX (c_log (cx sf)) dt = Ok (first, frames, fps) /\ map fst first = akeys (c_models c) /\
    (qn (length frames) * frame_step dt <= D /\ D < (qn (length frames) + 1) * frame_step dt) /\
    forall k t pic, nth_error frames k = Some (t, pic) -> t = qn k * frame_step dt /\ map fst pic = akeys (c_models c) /\ shows mulX addX (c_log (cx sf)) t pic.
Proof.
  intros W mulX addX c m fuel sf dt V U P T0 L0 M R T Q. destruct (run_log c m fuel sf V U P T0 L0 M R T) as (K & ML & KF & I & D & L & D1 & D2).
  assert (DP : 0 < D) by qlra. destruct (C93_frames W mulX addX (c_log (cx sf)) dt D ML KF I L DP Q) as (first & frames & fps & E & S0 & B & N).
  assert (KS : forall t pic, shows mulX addX (c_log (cx sf)) t pic -> map fst pic = akeys (c_models c)).
  { intros t pic H. rewrite <- K. unfold shows in H. clear - H. induction H as [|a b l1 l2 H1 H2 IH]; [reflexivity|]. destruct H1 as [H1 _]. change (akeys (a :: l1)) with (fst a :: akeys l1). cbn [map]. rewrite IH, H1. reflexivity. }
  exists D, first, frames, fps. split; [exact L|]. split; [exact D1|]. split; [exact D2|]. split; [exact E|]. split; [exact (KS _ _ S0)|]. split; [exact B|].
  intros k t pic H. destruct (N k t pic H) as [N1 N2]. split; [exact N1|]. split; [exact (KS _ _ N2)|exact N2].
Qed.

(** The file plays at least as fast as the simulation and less than a factor
    1 + [frame_step dt] faster: [fps] frames a second, [frame_step dt] seconds each. *)
Theorem C93_speed : forall W mulX addX (log : list (player * plog W)) dt first frames fps, 0 < dt -> create_animation mulX addX log dt = Ok (first, frames, fps) ->
  1 <= qz fps * frame_step dt /\ qz fps * frame_step dt < 1 + frame_step dt.
Proof.
  intros W mulX addX log dt first frames fps Q E. destruct (step_pos dt Q) as [SP _]. unfold create_animation in E.
  destruct (simlog_init_time log) as [a|]; [|discriminate]. destruct (simlog_last_time log) as [b|]; [|discriminate]. cbn [Base.bind] in E. destruct (negb (qltb a b)); [discriminate|]. cbv zeta in E. destruct (qeqb (qmin (qz 1000) dt) 0) eqn:Z; [discriminate|]. destruct (_ <? 0)%Z; [discriminate|].
  destruct (simlog_at_interp mulX addX log a) as [f0|]; [|discriminate]. cbn [Base.bind] in E. destruct (rmapM _ _) as [fr|]; [|discriminate]. cbn [Base.bind] in E. injection E as _ _ <-.
  destruct (qceil_spec (qz 1000 / qmin (qz 1000) dt)) as [C1 C2]. set (n := qceil _) in *. clearbody n.
  assert (I : qz 1000 / qmin (qz 1000) dt * frame_step dt = 1). { apply qeqb_neq in Z. unfold frame_step. field. split; [discriminate|exact Z]. }
  apply (Qcmult_le_compat_r _ _ (frame_step dt)) in C1; [|apply Qclt_le_weak; exact SP]. apply (Qcmult_lt_compat_r _ _ (frame_step dt) SP) in C2. rewrite I in C1. split; [exact C1|].
  replace ((qz 1000 / qmin (qz 1000) dt + 1) * frame_step dt) with (qz 1000 / qmin (qz 1000) dt * frame_step dt + frame_step dt) in C2 by ring. rewrite I in C2. exact C2.
Qed.

(** It does not play in real time for every interval: with the default of 30 milliseconds
    it is 2% too fast. *)
Theorem C93_real_time_refuted : exists W mulX addX (log : list (player * plog W)) first frames fps,
  create_animation mulX addX log (qz 30) = Ok (first, frames, fps) /\ frames <> [] /\ qz fps * frame_step (qz 30) = qf 102 100.
Proof.
  assert (X : exists s, run 7 new_simulator ctx1 = Some (Ok s) /\ qltb (qz 1) (time s) = true) by (apply (get_ok (fun s => qltb (qz 1) (time s))); vm_compute; reflexivity).
  destruct X as (s & R & X). apply qltb_lt in X. assert (D1 : SimulatorModel.dt (g_param (c_cfg ctx1)) = qf 1 2) by reflexivity.
  destruct (C93_run line Qcmult Qcplus ctx1 new_simulator 7 s (qz 30)) as (D & first & frames & fps & H1 & H2 & H3 & H4 & H5 & H6 & H7); [apply started1|reflexivity|exact dt1|vm_compute; reflexivity|reflexivity|discriminate|exact R| |reflexivity|].
  - rewrite D1. apply Qclt_trans with (qz 1); [reflexivity|exact X].
  - exists line, Qcmult, Qcplus, (c_log (cx s)), first, frames, fps. split; [exact H4|]. split.
    + intro C. subst frames. destruct H6 as [_ H6]. rewrite D1 in H2. change (qn (length [])) with 0 in H6. assert (Y : (0 + 1) * frame_step (qz 30) = qf 3 100) by (apply Qc_is_canon; vm_compute; reflexivity). rewrite Y in H6.
      assert (qz 1 - qf 1 2 < qf 3 100) by qlra. revert H. vm_compute. discriminate.
    + unfold create_animation in H4. destruct (simlog_init_time (c_log (cx s))) as [a|]; [|discriminate]. rewrite H1 in H4. cbn [Base.bind] in H4. destruct (negb (qltb a D)); [discriminate|]. cbv zeta in H4. change (qeqb (qmin (qz 1000) (qz 30)) 0) with false in H4. cbv iota in H4. destruct (_ <? 0)%Z; [discriminate|].
      destruct (simlog_at_interp (W := line) Qcmult Qcplus (c_log (cx s)) a) as [f0|]; [|discriminate]. cbn [Base.bind] in H4. destruct (rmapM _ _) as [fr|]; [|discriminate]. cbn [Base.bind] in H4. injection H4 as _ _ <-. apply Qc_is_canon. vm_compute. reflexivity.
Qed.

(** The file written has one of the three known endings and is the one asked for, unless
    that has none of them, when .mp4 is added. *)
Theorem C93_file : forall path, (exists e, In e [".mp4"; ".gif"; ".avi"] /\ ends_with (file_name path) e = true) /\
  ((exists e, In e [".mp4"; ".gif"; ".avi"] /\ ends_with path e = true) -> file_name path = path) /\
  (~ (exists e, In e [".mp4"; ".gif"; ".avi"] /\ ends_with path e = true) -> file_name path = (path ++ ".mp4")%string).
Proof.
  intros path. unfold file_name. destruct (existsb (ends_with path) [".mp4"; ".gif"; ".avi"]) eqn:E.
  - apply existsb_exists in E as (e & I & X). split; [eauto|]. split; [reflexivity|]. intro C. destruct C. eauto.
  - split; [exists ".mp4"; split; [left; reflexivity|apply ends_app]|]. split; [|reflexivity]. intros (e & I & X). assert (Y : existsb (ends_with path) [".mp4"; ".gif"; ".avi"] = true) by (apply existsb_exists; eauto). congruence.
Qed.

(** The run of C30_ex, with one frame each half second. *)
Example C93_ex : match run 7 new_simulator ctx1 with
  | Some (Ok s) =>
      match create_animation (W := line) Qcmult Qcplus (c_log (cx s)) (qz 500) with
      | Ok (first, frames, fps) => map (fun f : Qc * list (nat * log_entry line) => (this (fst f), map (fun e : nat * log_entry line => this (le_state (snd e))) (snd f))) frames
           = [(0#1, [0#1; 4#1; 5#1]); (1#2, [1#2; 7#2; 17#4]); (1#1, [1#1; 3#1; 7#2]); (3#2, [1#1; 5#2; 11#4]); (2#1, [1#1; 2#1; 2#1]); (5#2, [1#1; 3#2; 5#4])]%Q /\ fps = 2%Z
      | _ => False
      end
  | _ => False
  end /\ file_name "out" = "out.mp4" /\ file_name "out.gif" = "out.gif".
Proof. vm_compute. repeat split. Qed.

(** ** C94 Who collided *)

Theorem C94_who_collided : forall D (reports : list (SimulatorModel.report D)),
  NoDup (who_collided reports) /\ forall p, In p (who_collided reports) <-> exists r, In r reports /\ In p (r_players r).
Proof.
  intros D reports. unfold who_collided. split; [apply NoDup_nodup|]. intro p. rewrite nodup_In, in_concat. split.
  - intros (l & H & I). apply in_map_iff in H as (r & <- & H). eauto.
  - intros (r & H & I). exists (r_players r). split; [apply in_map; exact H|exact I].
Qed.

(** It is not, as documented, the players that collided with one of them: two other
    players that touched each other are named too. *)
Theorem C94_with_the_ego_refuted : exists (reports : list (SimulatorModel.report unit)) ego p, (exists r, In r reports /\ In ego (r_players r)) /\
  In p (who_collided reports) /\ ~ exists r, In r reports /\ In ego (r_players r) /\ In p (r_players r).
Proof.
  exists [mkRep [1; 2]%nat 0 None; mkRep [3; 4]%nat 0 None], 1%nat, 3%nat. split; [exists (mkRep [1; 2]%nat 0 None); split; [left; reflexivity|left; reflexivity]|].
  split; [vm_compute; auto|]. intros (r & [<-|[<-|[]]] & A & B); cbn in A, B; intuition discriminate.
Qed.

(** After a run: exactly those that some collision call of the run named. *)
Theorem C94_run : forall W (c : ctx W) m fuel sf, valid_ctx c -> unused m -> 0 < SimulatorModel.dt (g_param (c_cfg c)) -> c_reports c = [] ->
  run fuel m c = Some (Ok sf) -> forall p, In p (who_collided (c_reports (cx sf))) <-> exists r, In r (expected_reports (ev sf)) /\ In p (r_players r).
Proof.
  intros W c m fuel sf V U D R0 H p. rewrite (proj2 (C94_who_collided _ _)). 
  unfold run in H. destruct (init_run c m) as [s0|] eqn:E0; [|discriminate]. assert (S : started c s0) by (split; [exact V|eauto]). destruct (loop fuel s0) as [[s|e1]|] eqn:El; [|discriminate|discriminate].
  destruct (loop_after s0 fuel 0 s0 s (after_0 s0) El) as (k & A & T). injection H as H. pose proof (C27_reports_are_the_calls_pf W c s0 k s S D A) as RR. rewrite R0 in RR. cbn [app] in RR.
  assert (X : c_reports (cx sf) = c_reports (cx s) /\ ev sf = ev s).
  { unfold write_logs in H. refine (rfold_inv' write_log (fun x => c_reports (cx x) = c_reports (cx s) /\ ev x = ev s) _ _ _ _ _ H); [auto|].
    intros q x x' [X1 X2] _ Hw. unfold write_log in Hw. destruct (dgetE (s_logs (sm x)) q); [|discriminate]. destruct (logger_as_sequence _); [|discriminate]. injection Hw as <-. cbn [upd_cx cx ev set_log c_reports]. auto. }
  destruct X as [X1 X2]. rewrite X1, X2, RR. tauto.
Qed.

Example C94_ex : match run 7 new_simulator ctx1 with Some (Ok s) => who_collided (c_reports (cx s)) = [2; 3]%nat | _ => False end.
Proof. vm_compute. reflexivity. Qed.

(** ** C22 The computation times *)

(** The log of the computation times has exactly one entry per request, at its time. *)
Theorem C22_computation_times_logged : forall W (c : ctx W) s0 k s p, started c s0 -> 0 < SimulatorModel.dt (g_param (c_cfg c)) -> after s0 k s ->
  In p (akeys (c_models c)) -> info_log s p = map (fun a => (ask_t a, cpu_time W p (ask_t a))) (asks s p).
Proof.
  intros W c s0 k s p S D A. apply (info_log_is_requests c s0 S D k s A).
Qed.

(** ** C101 Pictures of the collisions of a run *)

Lemma interp_at_sample : forall X mulX addX (s : seq X) t x v, obtainable s -> (forall a b, addX (mulX a 1) (mulX b 0) = a) -> In (t, x) (iter s) -> interp_rel mulX addX s t v -> v = x.
Proof.
  intros X mulX addX s t x v O L Hi H. apply obtainable_WF in O as W. destruct W as [Hl Inc_]. apply In_nth_error in Hi as [i Hi]. unfold iter in Hi. apply nth_error_combine in Hi as [Ht Hv]. cbn [fst snd] in Ht, Hv.
  destruct H as [t0 v A B C|t1 v A B C D|j ta tb va vb A B C D E F G].
  - destruct i as [|i]; [congruence|]. exfalso. assert (T : t0 < t) by (eapply (Inc_nth _ Inc_ 0 (S i)); [lia|eassumption..]). qlra.
  - unfold last_of in A, C. rewrite <- Hl in C. assert (Q : (i < length (tss s))%nat) by (apply nth_error_Some; congruence).
    destruct (Nat.eq_dec i (length (tss s) - 1)) as [->|N]; [congruence|]. exfalso. assert (T : t < t1) by (eapply (Inc_nth _ Inc_ i (length (tss s) - 1)%nat); [lia|eassumption..]). qlra.
  - destruct (lt_eq_lt_dec i j) as [[Q|Q]|Q].
    + exfalso. assert (T : t < ta) by (eapply (Inc_nth _ Inc_ i j); eassumption). qlra.
    + subst j. rewrite Ht in A. injection A as <-. rewrite Hv in C. injection C as <-. assert (Z : (t - t) / (tb - t) = 0) by (field; intro K; qlra). rewrite Z. replace (1 - 0) with 1 by ring. apply L.
    + exfalso. destruct (Nat.eq_dec i (S j)) as [->|N]; [assert (t = tb) by congruence; qlra|]. assert (T : tb < t) by (eapply (Inc_nth _ Inc_ (S j) i); [lia|eassumption..]). qlra.
Qed.

Lemma collisions_before : forall W (c : ctx W) s0, started c s0 -> 0 < SimulatorModel.dt (g_param (c_cfg c)) -> resolution_keeps_footprint W -> (forall f g, intersects W f g = intersects W g f) ->
  forall k s, after s0 k s -> forall p t, ((exists q, In (p, q, t) (pairs_of (ev s)) \/ In (q, p, t) (pairs_of (ev s))) \/ exists i, In (p, i, t) (envs_of (ev s))) ->
  exists j sj, (0 < j <= k)%nat /\ after s0 j sj /\ t = time sj /\ active sj p /\ c_term (cx sj) = false.
Proof.
  intros W c s0 S D RK SY k s A. induction A as [|k s s' A IH T St]; intros p t H.
  - exfalso. destruct S as (V & m & U & E0). assert (X : ev s0 = []).
    { unfold init_run in E0. refine (rfold_inv' init_player (fun x => ev x = []) _ _ _ _ _ E0); [reflexivity|]. intros q x x' X _ Hw. unfold init_player in Hw.
      destruct (dgetE (c_players (cx x)) q); [|discriminate]. destruct (dgetE (c_models (cx x)) q); [|discriminate]. destruct (agent_init _ _ _ _ _ _ _); [|discriminate]. injection Hw as <-. exact X. }
    rewrite X in H. destruct H as [(q & [[]|[]])|(i & [])].
  - destruct (C27_every_touching_pair_once_pf W c s0 k s s' S D RK SY A T St) as (np & E & _ & _ & Z1 & Z2).
    assert (New : forall q, In (p, q) np \/ In (q, p) np -> t = time s' -> exists j sj, (0 < j <= Datatypes.S k)%nat /\ after s0 j sj /\ t = time sj /\ active sj p /\ c_term (cx sj) = false).
    { intros q Hq Et. destruct (c_term (cx s')) eqn:Tm; [rewrite (Z1 eq_refl) in Hq; destruct Hq as [[]|[]]|]. exists (Datatypes.S k), s'. split; [lia|]. split; [econstructor; eassumption|]. split; [exact Et|]. split; [|exact Tm]. apply (proj1 (Z2 eq_refl p q) Hq). }
    assert (Old : (exists j sj, (0 < j <= k)%nat /\ after s0 j sj /\ t = time sj /\ active sj p /\ c_term (cx sj) = false) -> exists j sj, (0 < j <= Datatypes.S k)%nat /\ after s0 j sj /\ t = time sj /\ active sj p /\ c_term (cx sj) = false).
    { intros (j & sj & J & K). exists j, sj. split; [lia|exact K]. }
    destruct H as [(q & H)|(i & H)].
    + rewrite E, !in_app_iff in H. assert (M : forall a b, In (a, b, t) (map (fun pq => (fst pq, snd pq, time s')) np) -> In (a, b) np /\ t = time s').
      { intros a b Hm. apply in_map_iff in Hm as ([a' b'] & Em & Hm). cbn [fst snd] in Em. injection Em as <- <- <-. auto. }
      destruct H as [[H|H]|[H|H]]; [apply Old, IH; left; exists q; auto|destruct (M _ _ H) as [H1 H2]; exact (New q (or_introl H1) H2)|apply Old, IH; left; exists q; auto|destruct (M _ _ H) as [H1 H2]; exact (New q (or_intror H1) H2)].
    + destruct (C28_only_active_players_pf W c s0 k s s' p i t S D A T St H) as [H'|(Ha & Et & Tm)]; [apply Old, IH; right; exists i; exact H'|].
      exists (Datatypes.S k), s'. split; [lia|]. split; [econstructor; eassumption|]. auto.
Qed.

(** In the log of a run from time 0, at the time of a collision, every player that collided has
    the state in which the collision left it: this is where its picture is drawn. *)
Theorem C101_run : forall W mulX addX (c : ctx W) m fuel sf, valid_ctx c -> unused m -> 0 < SimulatorModel.dt (g_param (c_cfg c)) -> c_time c = 0 -> c_log c = [] ->
  resolution_keeps_footprint W -> (forall f g, intersects W f g = intersects W g f) -> (forall a b, addX (mulX a 1) (mulX b 0) = a) ->
  run fuel m c = Some (Ok sf) ->
  exists s0, started c s0 /\ forall p t, ((exists q, In (p, q, t) (pairs_of (ev sf)) \/ In (q, p, t) (pairs_of (ev sf))) \/ exists i, In (p, i, t) (envs_of (ev sf))) ->
    exists k s x entries e, after s0 k s /\ time s = t /\ active s p /\ state_of s p = Some x /\
      simlog_at_interp mulX addX (c_log (cx sf)) t = Ok entries /\ dget entries p = Some e /\ le_state e = x.
Proof.
  intros W mulX addX c m fuel sf V U D T0 L0 RK SY LAW R.
  destruct (C24_every_player_gets_its_log_pf W c m fuel sf V U D R) as (s0 & k & s & S & A & T & Tk & Ee & Et & LG). exists s0. split; [exact S|]. intros p t H. rewrite Ee in H.
  destruct (collisions_before W c s0 S D RK SY k s A p t H) as (j & sj & [J0 J1] & Aj & Ej & Ha & Tj).
  assert (Hjk : (j < k)%nat). { destruct (Nat.eq_dec j k) as [->|N]; [|lia]. rewrite (after_fun _ _ _ A _ Aj) in Tj. congruence. }
  assert (Hp : In p (akeys (c_models c))). { apply (proj1 (started_start _ _ S)). exact (active_back c s0 S D _ _ Aj 0%nat s0 p ltac:(lia) (after_0 s0) Ha). }
  pose proof (started_facts _ _ _ _ S D Aj) as Fj. pose proof (i_am _ (fa_inv _ _ _ _ Fj) p Ha) as Y. apply In_keys_dget in Y as [mm Y].
  assert (Ex : state_of sj p = Some (get_state W mm)) by (unfold state_of, model_of; rewrite Y; reflexivity).
  destruct (LG p Hp) as (pl & G1 & G2 & _).
  assert (In_ : In (t, get_state W mm) (iter (pl_states pl))). { rewrite G2. apply (proj2 (C20_each_tick_logged_once_pf W c s0 k s p S D A Hp)). left. exists j, sj. auto. }
  assert (M : c_models c <> []). { intro C. rewrite C in Hp. destruct Hp. }
  assert (HT : SimulatorModel.dt (g_param (c_cfg c)) < time sf).
  { rewrite Et. rewrite (fa_time _ _ _ _ (started_facts _ _ _ _ S D A)), T0. assert (Q : qn 2 <= qn k) by (apply qn_le; lia).
    apply (Qcmult_le_compat_r _ _ (SimulatorModel.dt (g_param (c_cfg c)))) in Q; [|apply Qclt_le_weak; exact D]. change (qn 2) with (1 + 1) in Q. qlra. }
  destruct (run_log c m fuel sf V U D T0 L0 M R HT) as (K & [ND ML] & KF & _).
  assert (Tpos : 0 <= t). { rewrite Ej, (fa_time _ _ _ _ Fj), T0. assert (Q : qn 0 <= qn j) by (apply qn_le; lia). apply (Qcmult_le_compat_r _ _ (SimulatorModel.dt (g_param (c_cfg c)))) in Q; [|apply Qclt_le_weak; exact D]. change (qn 0) with 0 in Q. rewrite Qcmult_0_l in Q. qlra. }
  destruct (C30_at_interp_defined_pf W mulX addX (c_log (cx sf)) t ML) as [entries En].
  { intros p' pl' Hin. destruct (KF p' pl' Hin) as (K1 & (u1 & K2 & K2') & (u2 & K3 & K3')). split; [exact K1|]. split; [exists u1|exists u2]; (split; [assumption|qlra]). }
  pose proof (C30_at_interp_contract_pf W mulX addX (c_log (cx sf)) t entries ML En) as F2.
  assert (F : exists e, dget entries p = Some e /\ interp_rel mulX addX (pl_states pl) t (le_state e)).
  { pose proof (dget_In _ _ _ _ G1) as Hin. clear - F2 Hin ND. induction F2 as [|[q ql] [q' e] l1 l2 H1 H2 IH]; [destruct Hin|]. destruct H1 as (H1 & H1' & _). cbn [fst snd] in H1, H1'. subst q'.
    change (akeys ((q, ql) :: l1)) with (q :: akeys l1) in ND. inversion ND as [|? ? N1 N2]; subst. rewrite dget_cons. destruct Hin as [E|Hin].
    - injection E as -> ->. rewrite Nat.eqb_refl. exists e. auto.
    - destruct (Nat.eqb_spec q p) as [->|N]; [exfalso; apply N1; apply (in_map fst) in Hin; exact Hin|exact (IH N2 Hin)]. }
  destruct F as (e & F1 & F3). exists j, sj, (get_state W mm), entries, e. split; [exact Aj|]. split; [symmetry; exact Ej|]. split; [exact Ha|]. split; [exact Ex|]. split; [exact En|]. split; [exact F1|].
  apply (interp_at_sample _ mulX addX (pl_states pl) t); [|exact LAW|exact In_|exact F3]. apply (ML p pl). apply (dget_In _ _ _ _ G1).
Qed.

(** The run of C30_ex has collisions, and its world is as required. *)
Example C101_run_ex : valid_ctx ctx1 /\ resolution_keeps_footprint line /\ (forall f g, intersects line f g = intersects line g f) /\
  (forall a b : w_X line, a * 1 + b * 0 = a) /\ match run 7 new_simulator ctx1 with Some (Ok s) => pairs_of (ev s) <> [] | _ => False end.
Proof.
  split; [exact (proj1 started1)|]. split; [split; [intros sc p q t a b a' b' H; injection H as <- <-; auto|reflexivity]|].
  split; [intros f g; apply near_sym|]. split; [intros a b; change (w_X line) with Qc in a, b; ring|]. vm_compute. discriminate.
Qed.
