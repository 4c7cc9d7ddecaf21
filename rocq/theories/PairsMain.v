(* Generated from tools/Pairs.src by tools/gen_props.py. *)
(** Collisions of two players at a time and the order in which the players are listed. *)
From Coq Require Import Reals QArith Qcanon ZArith List String Bool Arith Lia Permutation.
From Verif Require Import Base Num R2 GeoModel CollModel BuildModel DynModel ImpactModel ImpactSpec ImpactMain LoopModel LoopSpec LoopMain SwapSpec SwapProps PairsSpec.
From Verif Require Import SeqModel SimulatorModel SimulatorSpec DictLemmas SimulatorProofs SimulatorProofs2 SimulatorProofs3 SimulatorProofs4 SimulatorProofs5 SimulatorProofs6 SimulatorProofs7 SimulatorWorld CauseSpec CauseProofs CauseMain ApartSpec ApartProofs ApartMain OrderSpec OrderProofs OrderRead OrderMain.
Import ListNotations.
Open Scope Qc_scope.

(** Take two contexts that differ only in the order of their dicts, and a collision resolution that treats the two players alike when they are placed like [G] and does not move them.  If sensors and agents do not depend on the order, every collision is between two players that collide with nobody else at that instant, and those are placed like [G], then both runs agree after every number of iterations; a report may name its two players in the other order. *)
Lemma C142_contacts_pf : forall W (c c' : ctx W) G other s0 k s, reordered c c' -> NoDup (akeys (c_sensors c)) -> (forall a b, SimulatorModel.intersects W a b = SimulatorModel.intersects W b a) ->
  stays_in_place (W := W) (g_scen (c_cfg c)) -> resolves_evenly (W := W) (g_scen (c_cfg c)) G other ->
  started c s0 -> 0 < dt (g_param (c_cfg c)) -> after s0 k s -> (forall q, In q (akeys (c_models c)) -> order_blind c s q) -> one_at_a_time s -> collided_as G s0 k ->
  exists z0 z, started c' z0 /\ after z0 k z /\ same_state_up_to other s z.
Proof.
  intros W c c' G other s0 k s Ro Ns Sy Hk Hf St D A Ob On Co. pose proof St as (V & m & Um & H0). destruct (init_reordered c c' m m s0 Ro V H0) as (z0 & Z0 & _).
  assert (Sz : started c' z0) by (split; [eapply valid_reordered; eassumption|eauto]). destruct (run_order_contact other G c c' s0 z0 k s Ro Ns Sy Hk Hf St Sz D A Ob On Co) as (z & Z1 & Z2). eauto.
Qed.

(** A complete run of the other context ends too, in the same state and with the same logs. *)
Lemma C142_run_pf : forall W (c c' : ctx W) G other m m' fuel sf, reordered c c' -> NoDup (akeys (c_sensors c)) -> (forall a b, SimulatorModel.intersects W a b = SimulatorModel.intersects W b a) ->
  stays_in_place (W := W) (g_scen (c_cfg c)) -> resolves_evenly (W := W) (g_scen (c_cfg c)) G other ->
  valid_ctx c -> unused m -> unused m' -> 0 < dt (g_param (c_cfg c)) -> run fuel m c = Some (Ok sf) -> (forall q, In q (akeys (c_models c)) -> order_blind c sf q) -> one_at_a_time sf ->
  (forall s0, started c s0 -> collided_as G s0 fuel) -> exists zf, run fuel m' c' = Some (Ok zf) /\ same_state_up_to other sf zf /\ same_logs_all sf zf.
Proof.
  intros W c c' G other m m' fuel sf Ro Ns Sy Hk Hf V U U' D H Ob Nc Co. unfold run in H. destruct (init_run c m) as [s0|] eqn:E0; [|discriminate].
  assert (Sd : started c s0) by (split; [exact V|eauto]).
  destruct (loop fuel s0) as [[s|]|] eqn:El; [|discriminate|discriminate].
  destruct (loop_steps W s0 fuel s0 s El 0%nat (after_0 s0)) as (k & Lk & A & Tm). cbn [Nat.add] in A. pose proof (started_facts _ _ _ _ Sd D A) as F.
  assert (Nm : NoDup (akeys (c_models (cx s)))) by (rewrite (fa_models _ _ _ _ F); apply V).
  destruct (write_logs_ok s (fa_inv _ _ _ _ F) Nm) as (sf' & Wf & Wev & Wsm & (lg & Wcx) & Wl). rewrite Wf in H. injection H as ->.
  destruct (init_reordered c c' m m' s0 Ro V E0) as (z0 & Z0 & _).
  pose proof (valid_reordered c c' Ro V) as V'. assert (Sz : started c' z0) by (split; [exact V'|eauto]).
  assert (Ob' : forall q, In q (akeys (c_models c)) -> order_blind c s q).
  { intros q Kq. destruct (Ob q Kq) as (R & R1 & R2). exists R. split; [|exact R2]. unfold asks in *. rewrite Wev in R1. exact R1. }
  assert (Nc' : one_at_a_time s) by (unfold one_at_a_time in *; rewrite Wev in Nc; exact Nc).
  assert (Co' : collided_as G s0 k) by (intros j x p q out a b Lj; apply (Co s0 Sd); lia).
  destruct (run_order_contact other G c c' s0 z0 k s Ro Ns Sy Hk Hf Sd Sz D A Ob' Nc' Co') as (z & Az & Sm).
  pose proof Sm as (H1 & H2 & H3 & H4 & H5 & H6).
  assert (Lz : loop fuel z0 = Some (Ok z)) by (apply (after_loop W z0 k 0%nat z z0 fuel (after_0 z0)); [exact Az|congruence|exact Lk]).
  assert (D' : 0 < dt (g_param (c_cfg c'))) by (destruct Ro as (_ & _ & _ & _ & _ & _ & -> & _); exact D).
  pose proof (started_facts _ _ _ _ Sz D' Az) as Fz.
  assert (Nz : NoDup (akeys (c_models (cx z)))) by (rewrite (fa_models _ _ _ _ Fz); apply V').
  destruct (write_logs_ok z (fa_inv _ _ _ _ Fz) Nz) as (zf & Xf & Xev & Xsm & (lgz & Xcx) & Xl).
  exists zf. split; [unfold run; rewrite Z0, Lz, Xf; reflexivity|]. split.
  - unfold same_state_up_to, time, logger_of, model_of in *. rewrite ?Wcx, ?Xcx, ?Wsm, ?Xsm. cbn. auto 10.
  - intros q Kq. rewrite Wcx in Kq. cbn in Kq. destruct (Wl q Kq) as (l & G1 & M1 & M2 & M3 & M4 & _).
    destruct (Xl q) as (k' & G2 & M1' & M2' & M3' & M4' & _).
    { rewrite (fa_models _ _ _ _ Fz). eapply Permutation_in; [apply keys_perm, Ro|]. rewrite <- (fa_models _ _ _ _ F). exact Kq. }
    exists l, k'. split; [exact G1|]. split; [exact G2|]. rewrite M1, M2, M3, M4, M1', M2', M3', M4'. unfold states_log, commands_log, extra_log, info_log. rewrite (proj2 (H3 q Kq)). auto.
Qed.

Lemma resolve_gets Sh (sh : shapely Sh) M Loc (md : model_ops M Loc) i j ms ms' sc t : i <> j -> (forall r, aget Nat.eqb ms' r = aget Nat.eqb ms r) ->
  snd (resolve_collision sh md i j ms' sc t) = snd (resolve_collision sh md i j ms sc t) /\
  forall r, aget Nat.eqb (fst (resolve_collision sh md i j ms' sc t)) r = aget Nat.eqb (fst (resolve_collision sh md i j ms sc t)) r.
Proof.
  intros N E. unfold resolve_collision, agetE. rewrite !E. destruct (aget Nat.eqb ms i) as [a|]; [|auto]. destruct (aget Nat.eqb ms j) as [b|]; [|auto].
  destruct (compute_impact_geometry sh _ _) as [[nrm ip]|]; [|auto]. destruct (md_velocity md a) as [va wa], (md_velocity md b) as [vb wb].
  destruct (match nrm with None => false | Some _ => _ end); [auto|]. cbv zeta.
  repeat match goal with |- context [match impact_locations_from_polygons ?x1 ?x2 ?x3 ?x4 with Ok _ => _ | Err _ => _ end] => destruct (impact_locations_from_polygons x1 x2 x3 x4); [|split; [reflexivity|]; intro r; cbn [fst]; rewrite !dget_dset, !E; reflexivity] end.
  match goal with |- context [match match sc with None => Ok (false, false) | Some _ => _ end with Ok _ => _ | Err _ => _ end] => destruct (match sc with None => Ok (false, false) | Some _ => _ end) as [[fa fb]|]; [|split; [reflexivity|]; intro r; cbn [fst]; rewrite !dget_dset, !E; reflexivity] end.
  split; [reflexivity|]. intro r. cbn [fst]. rewrite !dget_dset, !E. reflexivity.
Qed.

Lemma two_gets {M} p q (a b : M) : p <> q -> forall r, aget Nat.eqb [(q, b); (p, a)] r = aget Nat.eqb [(p, a); (q, b)] r.
Proof.
  intros N r. unfold aget. cbn. rewrite ?(Nat.eqb_sym r). destruct (Nat.eqb_spec p r) as [E|E], (Nat.eqb_spec q r) as [F|F]; cbn; try reflexivity; congruence.
Qed.

(** The collisions of dg-commons do not move the players ... *)
Lemma C142_in_place_pf : forall L C env sc, stays_in_place (W := sim_world L C env) sc.
Proof.
  intros L C env sc p q t a b a' b' out H.
  destruct (resolve_cases L C sc p q t a b a' b' out H) as [(-> & -> & _)|((_ & Ha & _) & (_ & Hb & _) & _)]; [auto|].
  cbn [footprint sim_world]. unfold seen_by, seen. cbn [md_footprint]. rewrite (stays_footprint _ _ _ _ _ Ha), (stays_footprint _ _ _ _ _ Hb). auto.
Qed.

Lemma models_swap L C (sc : co_scen C) p q t (a b a' b' : model) out : even_handed (li_shapely L) -> p <> q -> face_to_face (li_shapely L) (md_footprint (seen_by L) a) (md_footprint (seen_by L) b) ->
  resolve_models L C sc p q t a b = ((a', b'), out) -> exists out', resolve_models L C sc q p t b a = ((b', a'), out') /\
    match out, out' with
    | Ok None, Ok None => True
    | Ok (Some r), Ok (Some r') => SimulatorModel.r_time r' = SimulatorModel.r_time r /\ other_order r r'
    | Err CollisionException, Err CollisionException => True
    | Err e, Err e' => e' = e
    | _, _ => False
    end.
Proof.
  intros Ev N Fc H. unfold resolve_models in *. rewrite (proj2 (Nat.eqb_neq p q) N) in H. rewrite (proj2 (Nat.eqb_neq q p) (not_eq_sym N)).
  destruct (pair_models p q a b a b N) as (Pa & Pb & _).
  pose proof (C140_swapped _ (li_shapely L) _ _ (seen_by L) p q [(p, a); (q, b)] (co_net C sc) (seconds t) a b N Ev Pa Pb Fc) as Sw.
  destruct (resolve_gets _ (li_shapely L) _ _ (seen_by L) q p [(p, a); (q, b)] [(q, b); (p, a)] (co_net C sc) (seconds t) (not_eq_sym N) (two_gets p q a b N)) as [E1 E2].
  rewrite Sw in E1, E2. cbn [fst snd] in E1, E2.
  destruct (resolve_collision (li_shapely L) (seen_by L) q p [(q, b); (p, a)] (co_net C sc) (seconds t)) as [ms2 o2]. destruct (resolve_collision (li_shapely L) (seen_by L) p q [(p, a); (q, b)] (co_net C sc) (seconds t)) as [ms1 o1]. cbn [fst snd] in *.
  injection H as <- <- <-. rewrite !E2, E1. eexists. split; [reflexivity|].
  destruct o1 as [[r|]|e]; cbn; auto.
  - split; [reflexivity|]. unfold other_order, as_report. cbn. rewrite map_rev. auto.
  - destruct e; cbn; auto.
Qed.

(** ... and treat two players alike if neither is inside the other and the line through the crossing points passes between the centres. *)
Lemma C142_evenly_pf : forall L C env sc, even_handed (li_shapely L) -> resolves_evenly (W := sim_world L C env) sc (face_to_face (li_shapely L)) other_order.
Proof.
  intros L C env sc Ev p q t a b a' b' out N Fc H. destruct (models_swap L C sc p q t a b a' b' out Ev N Fc H) as (out' & H1 & H2). exists out'. split; [exact H1|].
  destruct out as [[r|]|[]], out' as [[r'|]|[]]; cbn in *; try discriminate; try contradiction; try exact H2; try exact I. unfold other_order. cbn. auto.
Qed.

(** So in the simulator of dg-commons: sensors and agents blind to the order, collisions of two players at a time, face to face. *)
Lemma C142_simulator_pf : forall L C env (c c' : ctx (sim_world L C env)) s0 k s, reordered c c' -> NoDup (akeys (c_sensors c)) -> even_handed (li_shapely L) ->
  (forall x y, CollModel.intersects (li_shapely L) x y = CollModel.intersects (li_shapely L) y x) ->
  started c s0 -> 0 < dt (g_param (c_cfg c)) -> after s0 k s -> (forall q, In q (akeys (c_models c)) -> order_blind c s q) -> one_at_a_time s -> collided_as (W := sim_world L C env) (face_to_face (li_shapely L)) s0 k ->
  exists z0 z, started c' z0 /\ after z0 k z /\ same_state_up_to (W := sim_world L C env) other_order s z.
Proof.
  intros L C env c c' s0 k s Ro Ns Ev Sy St D A Ob On Co.
  exact (C142_contacts_pf (sim_world L C env) c c' (face_to_face (li_shapely L)) other_order s0 k s Ro Ns Sy (C142_in_place_pf L C env _) (C142_evenly_pf L C env _ Ev) St D A Ob On Co).
Qed.

(** Players with a place and a velocity on a line; those that touch exchange their velocities. *)
Definition bumpers : world := {|
  w_X := Qc * Qc; w_U := Qc; w_M := Qc * Qc; w_A := unit; w_G := Qc; w_S := bool; w_F := Qc; w_O := Qc;
  w_E := nat; w_I := unit; w_D := unit; w_scen := unit;
  get_state := fun m => m; footprint := fst; SimulatorModel.intersects := near; is_dyn := fun _ => false;
  model_step := fun m u d => Ok (fst m + snd m * d, snd m);
  agent_init := fun a _ _ _ _ _ => Ok a;
  agent_cmds := fun a o => Ok (a, 0);
  agent_extra := fun a => Ok (a, None);
  goal_done := fun g x _ => Ok false;
  sense := fun f _ o q => Ok (f, o);
  id_filter := false; cpu_time := fun _ _ => tt;
  env_query := fun _ _ => []; obstacles := fun _ => [];
  resolve := fun _ p q t a b => (((fst a, snd b), (fst b, snd a)), Ok (Some (SimulatorModel.mkRep [p; q] t (Some tt)))); resolve_env := fun p _ t m => (m, Ok None) |}.

Definition contacts {W : world} (s : st W) : list (player * player) := flat_map (fun e => match e with EPair p q _ _ => [(p, q)] | _ => [] end) (ev s).

Lemma in_contacts {W : world} (s : st W) p q t out : In (EPair p q t out) (ev s) -> In (p, q) (contacts s).
Proof. intro H. apply in_flat_map. exists (EPair p q t out). split; [exact H|left; reflexivity]. Qed.
