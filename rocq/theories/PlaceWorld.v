(** The simulator with the models of the package does the same everywhere. *)
From Coq Require Import String Reals List Bool Arith QArith Qcanon Lra Lia.
From Verif Require Import Base R2 GeoModel DataModel LaneModel BodyModel DynModel DrawModel CollModel BuildModel ImpactModel LoopModel BodySpec DataSpec BuildSpec MoveSpec LoopSpec SeqModel VehState AgentModel SimulatorModel MorphSpec PlaceSpec PlaceProofs PlaceModels.
Import ListNotations.
Open Scope R_scope.

Section W.
Context (t : vec) (a : R) (L : library) (C C' : company) (env : nat).
Context (onA : co_A C -> co_A C' -> Prop) (onG : co_G C -> co_G C' -> Prop) (onS : co_S C -> co_S C' -> Prop) (onE : co_E C -> co_E C' -> Prop) (onI : co_I C -> co_I C' -> Prop) (onC : co_scen C -> co_scen C' -> Prop).
Context (HL : library_everywhere t a L) (HC : company_everywhere t a C C' onA onG onS onE onI onC).
Notation rel := (moved_world t a L C C' env onA onG onS onE onI onC).
Notation mt := (model_there t a).

Lemma solver_there m n u d : mt m n -> both mt (model_update (li_solve L) m u d) (model_update (li_solve L) n u d).
Proof.
  intro H. destruct (le_solve _ _ _ HL) as (tab & hs & Hs).
  assert (E : forall k, model_update (li_solve L) k u d = model_update (rk_array tab (hs d)) k u d).
  { intro k. unfold model_update. destruct (as_ndarray _ (mo_state k)) as [x|]; cbn [bind]; [|reflexivity]. destruct (as_ndarray _ u) as [y|]; cbn [bind]; [|reflexivity]. rewrite Hs. reflexivity. }
  rewrite !E. pose proof (update_there t a tab (hs d) m n u d H) as U. unfold updated in U.
  destruct (model_update (rk_array tab (hs d)) m u d) as [m'|e]; [destruct U as (n' & -> & U); exact U|rewrite U; reflexivity].
Qed.

Lemma obs_there_match o o' : obs_match rel (fun p => p) 0%Qc o o' <-> obs_there t a o o'.
Proof.
  unfold obs_match, obs_there, dicts, times, pairs_of. cbn. split; intros (A & B); (split; [|rewrite Qcplus_0_r in *; exact B]).
  - induction A as [|x y l l' (X1 & X2 & X3) A IH]; constructor; [repeat split; assumption|exact IH].
  - induction A as [|x y l l' (X1 & X2 & X3) A IH]; constructor; [repeat split; assumption|exact IH].
Qed.

Lemma report_time s (x : option (CollModel.report (Sh := list vec) string)) : forall out out', out = Ok x -> out' = outcome_there t a (map (there t a)) out ->
  both (opt (report_match rel (fun p => p) 0%Qc)) (as_outcome s out) (as_outcome s out').
Proof.
  intros out out' -> ->. destruct x as [x|]; cbn; [|exact I]. unfold report_match, times. cbn. rewrite Qcplus_0_r. split; [|split; reflexivity].
  rewrite map_id, map_map. reflexivity.
Qed.
Lemma outcomes s out out' : out' = outcome_there t a (map (there t a)) out -> both (opt (report_match rel (fun p => p) 0%Qc)) (as_outcome s out) (as_outcome s out').
Proof. intro H. destruct out as [x|e]; [exact (report_time s x _ _ eq_refl H)|subst out'; reflexivity]. Qed.

Lemma models_resolved sc sc' p q s (x x' y y' : model) : onC sc sc' -> mt x x' -> mt y y' ->
  pairs_of (pairs_of mt mt) (both (opt (report_match rel (fun p => p) 0%Qc))) (resolve_models L C sc p q s x y) (resolve_models L C' sc' p q s x' y').
Proof.
  intros Hs Hx Hy. pose proof (seen_there t a (li_union L) (li_quad L) (li_valid L) (li_centroid L) (le_valid _ _ _ HL) (le_centroid _ _ _ HL)) as Em.
  unfold resolve_models. destruct (Nat.eqb p q); [split; [split; assumption|exact I]|].
    assert (M : models_there mt [(p, x); (q, y)] [(p, x'); (q, y')]) by (constructor; [split; [reflexivity|exact Hx]|constructor; [split; [reflexivity|exact Hy]|constructor]]).
    pose proof (resolve_there t a (map (there t a)) (li_shapely L) (le_shapely _ _ _ HL) (seen_by L) mt Em p q _ _ (co_net C sc) (co_net C' sc') (seconds s) M (ce_net _ _ _ _ _ _ _ _ _ _ HC sc sc' Hs)) as Q.
    destruct (resolve_collision (li_shapely L) (seen_by L) p q [(p, x); (q, y)] (co_net C sc) (seconds s)) as [ms out].
    destruct (resolve_collision (li_shapely L) (seen_by L) p q [(p, x'); (q, y')] (co_net C' sc') (seconds s)) as [ns out'].
    destruct Q as (Q & Qo).  split; [|exact (outcomes s out out' Qo)]. cbn [fst snd].
    split; cbn [fst snd].
    + pose proof (mget mt ms ns p Q) as G. destruct (aget Nat.eqb ms p), (aget Nat.eqb ns p); try contradiction; assumption.
    + pose proof (mget mt ms ns q Q) as G. destruct (aget Nat.eqb ms q), (aget Nat.eqb ns q); try contradiction; assumption.
Qed.

Lemma obstacle_resolved p ob s (m n : model) : ge_Iz (snd ob) = None -> mt m n ->
  pairs_of mt (both (opt (report_match rel (fun p => p) 0%Qc))) (resolve_with_obstacle L env p ob s m) (resolve_with_obstacle L env p (map (there t a) (fst ob), snd ob) s n).
Proof.
  intros Ho H. pose proof (seen_there t a (li_union L) (li_quad L) (li_valid L) (li_centroid L) (le_valid _ _ _ HL) (le_centroid _ _ _ HL)) as Em.
  unfold resolve_with_obstacle. cbn [fst snd].
    pose proof (resolve_env_there t a (map (there t a)) (li_shapely L) (le_shapely _ _ _ HL) (seen_by L) "everywhere"%string mt Em env p m n (fst ob) (as_body (snd ob)) (seconds s) H) as Q.
    destruct (resolve_collision_with_environment (li_shapely L) (seen_by L) "everywhere"%string env p m (fst ob) (as_body (snd ob)) (seconds s)) as [m' out].
    destruct (resolve_collision_with_environment (li_shapely L) (seen_by L) "everywhere"%string env p n (map (there t a) (fst ob)) (as_body (snd ob)) (seconds s)) as [n' out'].
    destruct Q as (Q & Qo); [cbn; rewrite Ho; reflexivity|].  split; [exact Q|exact (outcomes s out out' Qo)].
Qed.

Lemma moved_corresponds : corresponding rel (fun p => p) 0%Qc.
Proof.
  pose proof (seen_there t a (li_union L) (li_quad L) (li_valid L) (li_centroid L) (le_valid _ _ _ HL) (le_centroid _ _ _ HL)) as Em.
  constructor.
  - intros m n (_ & _ & _ & S). exists (mo_kind m). exact S.
  - intros m n H. exact (me_footprint _ _ _ _ _ Em m n H).
  - intros x x' y y' -> ->. exact (se_intersects _ _ _ _ (le_shapely _ _ _ HL) x y).
  - intros m n ((K & _) & _). cbn. rewrite K. reflexivity.
  - intros m n u v d H E. cbn in E. subst v. exact (solver_there m n u (seconds d) H).
  - intros x y p sd sc sc' g g' m n. exact (ce_init _ _ _ _ _ _ _ _ _ _ HC x y p sd sc sc' g g' m n).
  - intros x y o o' Hx Ho. exact (ce_cmds _ _ _ _ _ _ _ _ _ _ HC x y o o' Hx (proj1 (obs_there_match o o') Ho)).
  - exact (ce_extra _ _ _ _ _ _ _ _ _ _ HC).
  - intros g g' x y s Hg (k & Hk). rewrite Qcplus_0_r. exact (ce_done _ _ _ _ _ _ _ _ _ _ HC g g' k x y s Hg Hk).
  - intros f f' sc sc' o o' p Hf Hs Ho. pose proof (ce_sense _ _ _ _ _ _ _ _ _ _ HC f f' sc sc' o o' p Hf Hs (proj1 (obs_there_match o o') Ho)) as Q. cbn.
    destruct (co_sense C f sc o p) as [[f1 o1]|], (co_sense C' f' sc' o' p) as [[f2 o2]|]; cbn in *; try contradiction; [|exact Q].
    destruct Q as (Q1 & Q2). split; [exact Q1|]. exact (proj2 (obs_there_match o1 o2) Q2).
  - exact (ce_id _ _ _ _ _ _ _ _ _ _ HC).
  - intros p s. rewrite Qcplus_0_r. exact (ce_time _ _ _ _ _ _ _ _ _ _ HC p s).
  - intros sc sc' f f' Hs ->. exact (ce_query _ _ _ _ _ _ _ _ _ _ HC sc sc' f Hs).
  - exact (ce_obstacles _ _ _ _ _ _ _ _ _ _ HC).
  - intros sc sc' p q s x x' y y' Hs Hx Hy. rewrite (Qcplus_0_r s). exact (models_resolved sc sc' p q s x x' y y' Hs Hx Hy).
  - intros p ob ob' s m n (-> & Ho) H. rewrite (Qcplus_0_r s). exact (obstacle_resolved p ob s m n Ho H).
Qed.
End W.
