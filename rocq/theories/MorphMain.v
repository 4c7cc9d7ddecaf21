(* Generated from tools/Morph.src by tools/gen_props.py. *)
(** Simulations that correspond: other names, another clock. *)
From Coq Require Import QArith Qcanon ZArith List Bool Arith Lia.
From Verif Require Import Base Num SeqModel SeqSpec SeqProofs SeqMain VehState CtrlModel AgentModel PerceptionModel SimulatorModel SimulatorSpec DictLemmas SimulatorWorld CauseSpec ApartMain MorphSpec MorphProofs MorphRead.
Import ListNotations.
Open Scope Qc_scope.

(** Take two simulations: other agents, models, sensors, goals and scenarios, other names of the players, another reading of the clock.  If every function of the one answers corresponding arguments as the function of the other does, then complete runs of corresponding contexts either raise the same exception, or both end, with corresponding models, logs, times and collision reports. *)
Lemma C137_run_pf : forall W V (r : relations W V) rho delta c d fuel, (forall p q, rho p = rho q -> p = q) -> corresponding r rho delta -> ctx_match r rho delta c d ->
  opt (both (fun s z => ctx_match r rho delta (cx s) (cx z))) (run fuel new_simulator c) (run fuel new_simulator d).
Proof.
  intros W V r rho delta c d fuel Inj Co C.
  assert (X : oboth (K0 r rho delta) (run fuel new_simulator c) (run fuel new_simulator d)).
  { apply run_rel; try assumption; [|left; reflexivity]. repeat split; constructor. }
  destruct (run fuel new_simulator c) as [[s|]|], (run fuel new_simulator d) as [[z|]|]; cbn in *; try contradiction; try assumption. apply X.
Qed.

(** The same after every number of iterations of the loop: neither of the two is ahead. *)
Lemma C137_after_pf : forall W V (r : relations W V) rho delta c d s0 k s, (forall p q, rho p = rho q -> p = q) -> corresponding r rho delta -> ctx_match r rho delta c d ->
  init_run c new_simulator = Ok s0 -> after s0 k s -> exists z0 z, init_run d new_simulator = Ok z0 /\ after z0 k z /\ ctx_match r rho delta (cx s) (cx z).
Proof.
  intros W V r rho delta c d s0 k s Inj Co C I A.
  assert (X : both (K0 r rho delta) (init_run c new_simulator) (init_run d new_simulator)).
  { apply init_rel; try assumption; [|left; reflexivity]. repeat split; constructor. }
  rewrite I in X. destruct (init_run d new_simulator) as [z0|]; [|contradiction]. destruct (after_rel r rho delta Inj Co s0 z0 k s X A) as (z & Z1 & Z2). exists z0, z. split; [reflexivity|]. split; [exact Z1|apply Z2].
Qed.

(** Names.  In a world where names mean nothing, renaming the players renames them in the results and changes nothing else. *)
Lemma C137_names_pf : forall W rho (c : ctx W) fuel, (forall p q, rho p = rho q -> p = q) -> nameless W rho ->
  match run fuel new_simulator c with
  | Some (Ok s) => exists z, run fuel new_simulator (ren_ctx rho 0 (ren rho (c_players c)) c) = Some (Ok z) /\ cx z = ren_ctx rho 0 (ren rho (c_players (cx s))) (cx s)
  | other => run fuel new_simulator (ren_ctx rho 0 (ren rho (c_players c)) c) = match other with Some (Err e) => Some (Err e) | _ => None end
  end.
Proof.
  intros W rho c fuel Inj [N1 N2 N3 N4 N5 N6]. set (d := ren_ctx rho 0 (ren rho (c_players c)) c).
  assert (Z : forall t : Qc, t + 0 = t) by (intro; ring).
  assert (Co : corresponding (same_but W eq) rho 0).
  { constructor; cbn [on_X on_U on_M on_A on_G on_S on_F on_O on_E on_I on_D on_scen same_but]; try (intros; subst; reflexivity).
    - intros m n u v t -> ->. destruct (model_step W n v t); reflexivity.
    - intros a b p sd sc sc' g g' m n -> -> G ->. apply opt_eq in G. subst g'. rewrite N1. destruct (agent_init W b p sd sc' g n); reflexivity.
    - intros a b o o' -> O. apply obs_eq in O. subst o'. rewrite N2. destruct (agent_cmds W b o) as [[x y]|]; cbn; [split|]; reflexivity.
    - intros a b ->. destruct (agent_extra W b) as [[x y]|]; cbn; [split; [reflexivity|apply opt_eq; reflexivity]|reflexivity].
    - intros g g' x y t -> ->. rewrite Z. reflexivity.
    - intros f f' sc sc' o o' p -> -> O. apply obs_eq in O. subst o'. rewrite N3. destruct (sense W f' sc' o p) as [[x y]|]; cbn; [split; [reflexivity|apply obs_eq; reflexivity]|reflexivity].
    - intros p t. rewrite Z, N4. reflexivity.
    - intros sc sc' ->. apply f2_eq. reflexivity.
    - intros sc sc' p q t a a' b b' -> -> ->. rewrite Z, N5. destruct (resolve W sc' p q t a' b') as [[x y] [o|]]; cbn; (split; [split; reflexivity|]); cbn; [|reflexivity]. destruct o; cbn; [apply report_eq; reflexivity|exact I].
    - intros p ob ob' t m n -> ->. rewrite Z, N6. destruct (resolve_env W p ob' t n) as [x [o|]]; cbn; (split; [reflexivity|]); cbn; [|reflexivity]. destruct o; cbn; [apply report_eq; reflexivity|exact I]. }
  assert (C : ctx_match (same_but W eq) rho 0 c d) by (apply ctx_eq; split; [apply dicts_eq; reflexivity|reflexivity]).
  pose proof (C137_run_pf W W _ rho 0 c d fuel Inj Co C) as X. destruct (run fuel new_simulator c) as [[s|]|], (run fuel new_simulator d) as [[z|]|]; cbn in X; try contradiction; try congruence.
  exists z. split; [reflexivity|]. apply ctx_eq in X as [X1 X2]. apply dicts_eq in X1. rewrite X1 in X2. exact X2.
Qed.

(** Time.  If nothing but the agents reads the clock, and the agents are open loop plans, then running the plans shifted by [delta], on a clock that starts at [delta] instead of 0, gives the same states, commands and collisions, [delta] later. *)
Lemma C137_later_pf : forall W emb delta (c : ctx W) plans fuel, timeless W delta -> open_loop W emb ->
  c_players c = map (fun e => (fst e, emb (fst (snd e)))) plans ->
  (forall p a b, In (p, (a, b)) plans -> obtainable a /\ shift_timestamps a delta = Ok b) ->
  let d := ren_ctx (fun p => p) delta (map (fun e => (fst e, emb (snd (snd e)))) plans) c in
  match run fuel new_simulator c with
  | Some (Ok s) => exists z, run fuel new_simulator d = Some (Ok z) /\ cx z = ren_ctx (fun p => p) delta (c_players (cx z)) (cx s) /\ akeys (c_players (cx z)) = akeys (c_players (cx s))
  | other => run fuel new_simulator d = match other with Some (Err e) => Some (Err e) | _ => None end
  end.
Proof.
  intros W emb delta c plans fuel [N2 N3 N4 N5 N6] (O1 & O2 & O3) Ep Hp d.
  set (A := fun a b => exists x y, obtainable x /\ shift_timestamps x delta = Ok y /\ a = emb x /\ b = emb y).
  assert (Co : corresponding (same_but W A) (fun p => p) delta).
  { constructor; cbn [on_X on_U on_M on_A on_G on_S on_F on_O on_E on_I on_D on_scen same_but]; try (intros; subst; reflexivity).
    - intros m n u v t -> ->. destruct (model_step W n v t); reflexivity.
    - intros a b p sd sc sc' g g' m n (x & y & H1 & H2 & -> & ->) -> G ->. rewrite !O1. cbn. exists x, y. auto.
    - intros a b o o' (x & y & H1 & H2 & -> & ->) O. apply obs_eq in O. subst o'. rewrite !O2. unfold np_get_commands. cbn [o_time ren_obs].
      destruct (C06_shift_is_time_translation_pf _ x delta H1) as (y' & E & _ & _ & Sh & _). rewrite H2 in E. injection E as <-. rewrite Sh.
      destruct (at_or_previous x (o_time o)) as [u|]; cbn; [|reflexivity]. split; [exists x, y; auto|reflexivity].
    - intros a b (x & y & H1 & H2 & -> & ->). rewrite !O3. cbn. split; [exists x, y; auto|exact I].
    - intros g g' x y t -> ->. apply N2.
    - intros f f' sc sc' o o' p -> -> O. apply obs_eq in O. subst o'. rewrite N3. destruct (sense W f' sc' o p) as [[x y]|]; cbn; [split; [reflexivity|apply obs_eq; reflexivity]|reflexivity].
    - intros p t. rewrite N4. reflexivity.
    - intros sc sc' ->. apply f2_eq. reflexivity.
    - intros sc sc' p q t a a' b b' -> -> ->. rewrite N5. destruct (resolve W sc' p q t a' b') as [[x y] [o|]]; cbn; (split; [split; reflexivity|]); cbn; [|reflexivity]. destruct o; cbn; [apply report_eq; reflexivity|exact I].
    - intros p ob ob' t m n -> ->. rewrite N6. destruct (resolve_env W p ob' t n) as [x [o|]]; cbn; (split; [reflexivity|]); cbn; [|reflexivity]. destruct o; cbn; [apply report_eq; reflexivity|exact I]. }
  assert (C : ctx_match (same_but W A) (fun p => p) delta c d).
  { apply ctx_eq. split; [|reflexivity]. rewrite Ep. unfold d, ren_ctx. cbn [c_players]. clear - Hp. induction plans as [|[p [a b]] l IH]; cbn; constructor.
    - split; [reflexivity|]. cbn. exists a, b. destruct (Hp p a b (or_introl eq_refl)). auto.
    - apply IH. intros q x y H. apply (Hp q x y). right. exact H. }
  assert (Inj : forall p q : player, p = q -> p = q) by auto.
  pose proof (C137_run_pf W W _ (fun p => p) delta c d fuel Inj Co C) as X. destruct (run fuel new_simulator c) as [[s|]|], (run fuel new_simulator d) as [[z|]|]; cbn in X; try contradiction; try congruence.
  exists z. split; [reflexivity|]. apply ctx_eq in X as [X1 X2]. split; [exact X2|]. clear - X1. unfold akeys. induction X1 as [|x y l k [H _] _ IH]; [reflexivity|]. cbn in *. congruence.
Qed.

(** The sensors of the package.  IdObsFilter answers corresponding observations with corresponding observations; so does DelayedObsFilter around a sensor that does, GhostObsFilter with the new name of the ghost, and FovObsFilter, whose field of view does not depend on names. *)
Lemma C137_id_sensor_pf : forall X F rho delta, equivariant (X := X) (F := F) rho delta (fun s => s) id_sense id_sense.
Proof. intros X F rho delta st sc o p. reflexivity. Qed.

Lemma hist_times {X F} rho delta (h : list (Qc * simobs X F)) : map fst (map (fun e => (fst e + delta, ren_obs rho delta (snd e))) h) = map (fun t => t + delta) (map fst h).
Proof. rewrite !map_map. reflexivity. Qed.

Lemma C137_delayed_sensor_pf : forall X F S rho delta (h : S -> S) (inner inner' : S -> list F -> simobs X F -> player -> result (S * simobs X F)) L, equivariant rho delta h inner inner' ->
  equivariant rho delta (fun d => mkDelayed (h (dl_inner d)) (map (fun e => (fst e + delta, ren_obs rho delta (snd e))) (dl_hist d))) (delayed_sense inner L) (delayed_sense inner' L).
Proof.
  intros X F S rho delta h inner inner' L E st sc o p. unfold delayed_sense. cbn [dl_inner dl_hist]. rewrite E. destruct (inner (dl_inner st) sc o p) as [[s' g]|]; [|reflexivity].
  cbn [o_time ren_obs]. set (hist := dl_hist st ++ [(o_time g + L, with_time g (o_time g + L))]).
  assert (Eh : map (fun e => (fst e + delta, ren_obs rho delta (snd e))) (dl_hist st) ++ [(o_time g + delta + L, with_time (ren_obs rho delta g) (o_time g + delta + L))] = map (fun e => (fst e + delta, ren_obs rho delta (snd e))) hist).
  { unfold hist. rewrite map_app. cbn. unfold with_time, ren_obs. cbn. replace (o_time g + delta + L) with (o_time g + L + delta) by ring. reflexivity. }
  rewrite Eh, hist_times. unfold bisect_left. rewrite map_length, bisect_shift by lia. destruct (bisect_left_loop _ _ _ _ _) as [i|]; [|reflexivity].
  rewrite nth_error_map. destruct (nth_error hist i) as [[t r]|]; reflexivity.
Qed.

Lemma ren_keep {V} rho (d : list (player * V)) p : (forall p q : player, rho p = rho q -> p = q) ->
  dget (ren rho d) (rho p) = dget d p /\ dgetE (ren rho d) (rho p) = dgetE d p /\ dmem (ren rho d) (rho p) = dmem d p /\ ddel (ren rho d) (rho p) = ren rho (ddel d p) /\ (forall v, dset (ren rho d) (rho p) v = ren rho (dset d p v)).
Proof.
  intro Inj. assert (E : dicts rho eq d (ren rho d)) by (apply dicts_eq; reflexivity).
  pose proof (dget_rel rho Inj eq d (ren rho d) p E) as H1. apply opt_eq in H1. split; [exact H1|]. split; [unfold agetE; rewrite H1; reflexivity|]. split; [unfold dmem; rewrite H1; reflexivity|].
  split; [apply dicts_eq, ddel_rel; assumption|]. intro v. apply dicts_eq, dset_rel; auto.
Qed.

Lemma C137_ghost_sensor_pf : forall X F P Z_ S (g : geo X F P Z_) rho delta (h : S -> S) (inner inner' : S -> list F -> simobs X F -> player -> result (S * simobs X F)) ghost d, (forall p q, rho p = rho q -> p = q) ->
  equivariant rho delta h inner inner' -> equivariant rho delta h (ghost_sense g inner ghost d) (ghost_sense g inner' (rho ghost) d).
Proof.
  intros X F P Z_ S g rho delta h inner inner' ghost d Inj E st sc o p. unfold ghost_sense. rewrite E. destruct (inner st sc o p) as [[s' q]|]; [|reflexivity]. cbn [o_players ren_obs].
  destruct (ren_keep rho (o_players q) ghost Inj) as (G1 & G2 & G3 & G4 & _). destruct (ren_keep rho (o_players q) p Inj) as (H1 & H2 & H3 & H4 & _).
  rewrite (eqb_rho rho Inj), G3, G2, H2, G4. destruct (Nat.eqb p ghost || negb (dmem (o_players q) ghost)); [reflexivity|].
  destruct (dgetE (o_players q) p) as [me|]; [|reflexivity]. destruct (position_of g (fst me)) as [a|]; [|reflexivity]. destruct (dgetE (o_players q) ghost) as [it|]; [|reflexivity]. destruct (position_of g (fst it)) as [b|]; [|reflexivity].
  destruct (further a b d); reflexivity.
Qed.

Lemma others_ren {V} rho p (l : list (player * V)) : (forall p q : player, rho p = rho q -> p = q) -> others (rho p) (ren rho l) = ren rho (others p l).
Proof. intro Inj. unfold others, ren. induction l as [|[q v] l IH]; [reflexivity|]. cbn. rewrite (eqb_rho rho Inj). destruct (Nat.eqb q p); cbn; rewrite IH; reflexivity. Qed.

Lemma mapM_ren {V B} rho (f : V -> result B) (l : list (player * V)) : rmapM (fun e => f (snd e)) (ren rho l) = rmapM (fun e => f (snd e)) l.
Proof. induction l as [|[q v] l IH]; [reflexivity|]. cbn. destruct (f v); [|reflexivity]. unfold ren in IH. rewrite IH. reflexivity. Qed.

Lemma fov_fold {X F P Z_} (g : geo X F P Z_) rho l : (forall p q : player, rho p = rho q -> p = q) -> forall region acc,
  rfold (fov_body g) (region, ren rho acc) (ren rho l) = match rfold (fov_body g) (region, acc) l with Ok (rg, ps) => Ok (rg, ren rho ps) | Err e => Err e end.
Proof.
  intro Inj. induction l as [|[q [x occ]] l IH]; intros region acc; [reflexivity|]. cbn [ren map fst snd rfold fov_body]. fold (ren rho l).
  assert (B : forall b v, (if b : bool then dset (ren rho acc) (rho q) v else ren rho acc) = ren rho (if b then dset acc q v else acc)). { intros [] v; [apply (ren_keep rho acc q Inj)|reflexivity]. }
  destruct (PerceptionModel.hits g region occ) as [b|]; [rewrite B; apply IH|]. destruct (if valid g region then _ else _) as [r'|]; [|reflexivity]. destruct (if valid g occ then _ else _) as [o'|]; [|reflexivity].
  destruct (PerceptionModel.hits g r' o') as [b|]; [rewrite B; apply IH|reflexivity].
Qed.

Lemma C137_fov_sensor_pf : forall X F P Z_ (g : geo X F P Z_) rho delta, (forall p q, rho p = rho q -> p = q) -> equivariant rho delta (fun f => f) (fov_sense g) (fov_sense g).
Proof.
  intros X F P Z_ g rho delta Inj st sc o p. unfold fov_sense. cbn [o_players ren_obs]. destruct (ren_keep rho (o_players o) p Inj) as (_ & -> & _). destruct (dgetE (o_players o) p) as [me|]; [|reflexivity].
  destruct (pose_of g (fst me)) as [z|]; [|reflexivity]. destruct (match fv_cache st with [] => _ | _ => _ end) as [static|]; [|reflexivity].
  rewrite (others_ren rho p _ Inj), (mapM_ren rho (fun v => to_cr g (snd v))). destruct (rmapM _ _) as [ls|]; [|reflexivity]. destruct (fov g z _) as [region|]; [|reflexivity].
  change [(rho p, me)] with (ren rho [(p, me)]). rewrite (fov_fold g rho _ Inj). destruct (rfold _ _ _) as [[rg ps]|]; reflexivity.
Qed.

(** The agents.  A plan asked at a later time answers as the later plan; a lane following agent told another name drives the same, at the same times, if everybody else is renamed as well.  (Its lights follow the absolute clock.) *)
Lemma C137_plan_agent_pf : forall X F U rho delta (plan plan' : seq U) (o : simobs X F), obtainable plan -> shift_timestamps plan delta = Ok plan' ->
  np_get_commands plan' (ren_obs rho delta o) = np_get_commands plan o.
Proof.
  intros X F U rho delta plan plan' o Ob E. unfold np_get_commands. cbn [o_time ren_obs]. destruct (C06_shift_is_time_translation_pf _ plan delta Ob) as (y' & E' & _ & _ & Sh & _). rewrite E in E'. injection E' as <-. apply Sh.
Qed.

Lemma yield_ren {X F : Type} (K : kin X) sp rho me (rs : list (player * rel_pose)) (l : list (player * (X * F))) : (forall p q : player, rho p = rho q -> p = q) -> anyone_to_yield_to K sp (rho me) (ren rho rs) (ren rho l) = anyone_to_yield_to K sp me rs l.
Proof.
  intro Inj. induction l as [|[p [x f]] l IH]; [reflexivity|]. cbn [ren map fst snd anyone_to_yield_to]. fold (ren rho l). rewrite (eqb_rho rho Inj), IH. rewrite (proj1 (proj2 (ren_keep rho rs p Inj))). reflexivity.
Qed.

Lemma emergency_ren {X F : Type} (K : kin X) sp rho me v (rs : list (player * rel_pose)) (l : list (player * (X * F))) : (forall p q : player, rho p = rho q -> p = q) -> emergency_needed K sp (rho me) v (ren rho rs) (ren rho l) = emergency_needed K sp me v rs l.
Proof.
  intro Inj. induction l as [|[p [x f]] l IH]; [reflexivity|]. cbn [ren map fst snd emergency_needed]. fold (ren rho l). rewrite (eqb_rho rho Inj), IH. rewrite (proj1 (proj2 (ren_keep rho rs p Inj))). reflexivity.
Qed.

Lemma cruise_ren {X F : Type} (K : kin X) sp rho me v (rs : list (player * rel_pose)) (l : list (player * (X * F))) : (forall p q : player, rho p = rho q -> p = q) -> cruise_candidates K sp (rho me) v (ren rho rs) (ren rho l) = cruise_candidates K sp me v rs l.
Proof.
  intro Inj. induction l as [|[p [x f]] l IH]; [reflexivity|]. cbn [ren map fst snd cruise_candidates]. fold (ren rho l). rewrite (eqb_rho rho Inj), IH. rewrite (proj1 (proj2 (ren_keep rho rs p Inj))). reflexivity.
Qed.

Lemma speed_ren {X F : Type} (K : kin X) sp rho me (l : list (player * (X * F))) : (forall p q : player, rho p = rho q -> p = q) -> get_speed_ref K sp (rho me) (Some (ren rho l)) = get_speed_ref K sp me (Some l).
Proof.
  intro Inj. unfold get_speed_ref. rewrite (proj1 (proj2 (ren_keep rho l me Inj))). destruct (dgetE l me) as [mine|]; [|reflexivity].
  assert (E : forall k : list (player * (X * F)), rmapM (fun e => match relative K (fst mine) (fst (snd e)) with None => Err ZValueError | Some r => Ok (fst e, r) end) (ren rho k) =
    match rmapM (fun e => match relative K (fst mine) (fst (snd e)) with None => Err ZValueError | Some r => Ok (fst e, r) end) k with Ok rs => Ok (ren rho rs) | Err e => Err e end).
  { induction k as [|[p [x f]] k IH]; [reflexivity|]. cbn [ren map fst snd rmapM]. fold (ren rho k). destruct (relative K (fst mine) x); [|reflexivity]. rewrite IH. destruct (rmapM _ k); reflexivity. }
  rewrite E. destruct (rmapM _ l) as [rs|]; [|reflexivity]. rewrite yield_ren by exact Inj. destruct (anyone_to_yield_to _ _ _ _ _) as [y|]; [|reflexivity]. destruct (vx_of K (fst mine)); [|reflexivity].
  rewrite emergency_ren by exact Inj. destruct (emergency_needed _ _ _ _ _ _); [|reflexivity]. destruct (y || _); [reflexivity|]. rewrite cruise_ren by exact Inj. reflexivity.
Qed.

Lemma C137_lane_follower_pf : forall X F PP G Lane (env : lf_env X PP G Lane) rho a (o : simobs X F), (forall p q, rho p = rho q -> p = q) ->
  lf_get_commands env (told rho a) (ren_obs rho 0 o) = match lf_get_commands env a o with Ok (b, u) => Ok (told rho b, u) | Err e => Err e end.
Proof.
  intros X F PP G Lane env rho a o Inj. unfold lf_get_commands. cbn [a_lane a_speed a_sb a_steer a_pp a_path a_pp_speed a_name a_emergency a_lights told o_players o_time ren_obs]. replace (o_time o + 0) with (o_time o) by ring.
  destruct (a_name a) as [n|]; cbn [option_map]; [|reflexivity]. rewrite (proj1 (proj2 (ren_keep rho (o_players o) n Inj))). destruct (dgetE (o_players o) n) as [[x f]|]; [|reflexivity].
  destruct (lf_attr env x) as [[vx dl]|]; [|reflexivity]. destruct (lf_along env (a_lane a) x) as [al|]; [|reflexivity]. rewrite speed_ren by exact Inj. destruct (get_speed_ref _ _ _ _) as [[ref em]|]; [|reflexivity].
  destruct (get_control _ _) as [spd acc]. destruct (lf_steering env _ _ _ _ _) as [dr|]; [|reflexivity]. destruct (get_control _ _) as [str dd]. destruct (at_or_previous _ _) as [l|]; [|reflexivity]. reflexivity.
Qed.

(** Non-vacuity.  The world of C135 with the ghost 9: names mean nothing to it but the name of the ghost.  Its players renamed by +1 (the ghost kept) have the same logs under the new names. *)
Definition plus1 (p : player) : player := if Nat.eqb p 9 then 9%nat else if Nat.ltb p 9 then (if Nat.eqb p 8 then 10%nat else S p) else S (S p).

Lemma plus1_inj : forall p q, plus1 p = plus1 q -> p = q.
Proof.
  intros p q. unfold plus1. destruct (Nat.eqb_spec p 9), (Nat.eqb_spec q 9), (Nat.ltb_spec p 9), (Nat.ltb_spec q 9); try lia; destruct (Nat.eqb_spec p 8), (Nat.eqb_spec q 8); lia.
Qed.

Lemma crowd_nameless : nameless crowd plus1.
Proof.
  constructor; try reflexivity.
  - intros a o. cbn. unfold ren. rewrite map_length. reflexivity.
  - assert (E : forall (o : simobs Qc Qc) p, ghost_sense crowd_geo id_sense 9%nat 1 tt [] (ren_obs plus1 0 o) (plus1 p) = match ghost_sense crowd_geo id_sense 9%nat 1 tt [] o p with Ok (s', g) => Ok (s', ren_obs plus1 0 g) | Err e => Err e end)
      by exact (fun o p => C137_ghost_sensor_pf Qc Qc unit unit unit crowd_geo plus1 0 (fun s => s) id_sense id_sense 9%nat 1 plus1_inj (C137_id_sensor_pf _ _ _ _) tt [] o p).
    intros [|] sc o p; [|reflexivity]. specialize (E o p). cbv beta iota delta [sense crowd w_X w_F w_S w_scen] in *. revert E. generalize (ghost_sense crowd_geo id_sense 9%nat 1 tt [] (ren_obs plus1 0 o) (plus1 p)) (ghost_sense crowd_geo id_sense 9%nat 1 tt [] o p). intros a b ->. destruct b as [[u q]|]; reflexivity.
  - intros sc p q t a b. cbn. unfold ren_report. cbn. replace (t + 0) with t by ring. reflexivity.
Qed.

(** Plans: a world of open loop agents; the same plans, and the clock, started 10 s later. *)
Definition convoy : world := {|
  w_X := Qc; w_U := Qc; w_M := Qc; w_A := seq Qc; w_G := Qc; w_S := unit; w_F := Qc; w_O := Qc;
  w_E := nat; w_I := unit; w_D := unit; w_scen := unit;
  get_state := fun m => m; footprint := fun m => m; intersects := near; is_dyn := fun _ => false;
  model_step := fun m u d => Ok (m + u * d);
  agent_init := fun a _ _ _ _ _ => Ok a;
  agent_cmds := fun a o => match np_get_commands a o with Ok u => Ok (a, u) | Err e => Err e end;
  agent_extra := fun a => Ok (a, None);
  goal_done := fun g x _ => Ok (qleb g x);
  sense := fun f _ o q => Ok (f, o);
  id_filter := tt; cpu_time := fun _ _ => tt;
  env_query := fun _ _ => []; obstacles := fun _ => [];
  resolve := fun _ p q t a b => ((a, b), Ok (Some (mkRep [p; q] t (Some tt)))); resolve_env := fun p _ t m => (m, Ok None) |}.

Definition plan_a : seq Qc := mkSeq [0; qz 1] [qz 2; qz 0] true.

Definition plan_b : seq Qc := mkSeq [0; qz 1] [qz 0; qz 3] true.

Definition plan_a' : seq Qc := mkSeq [qz 10; qz 11] [qz 2; qz 0] true.

Definition plan_b' : seq Qc := mkSeq [qz 10; qz 11] [qz 0; qz 3] true.

Definition convoy_plans : list (player * (seq Qc * seq Qc)) := [(1%nat, (plan_a, plan_a')); (2%nat, (plan_b, plan_b'))].

Definition convoy_ctx : ctx convoy := @mkCtx convoy
  (@mkConfig convoy tt (mkParam (qf 1 2) (qf 1 2) (qz 4) (qz 10)) [] true 0%nat)
  [(1%nat, qz 0); (2%nat, - qz 3)] (map (fun e => (fst e, fst (snd e))) convoy_plans) [] [] 0 false [] None.
