(* Generated from tools/Pairs.src by tools/gen_props.py. *)
(** Collisions of two players at a time and the order in which the players are listed. *)
From Coq Require Import Reals QArith Qcanon ZArith List String Bool Arith Lia Permutation.
From Verif Require Import Base Num R2 GeoModel CollModel BuildModel DynModel ImpactModel ImpactSpec ImpactMain LoopModel LoopSpec LoopMain SwapSpec SwapProps PairsSpec.
From Verif Require Import SeqModel SimulatorModel SimulatorSpec DictLemmas SimulatorProofs SimulatorProofs2 SimulatorProofs3 SimulatorProofs4 SimulatorProofs5 SimulatorProofs6 SimulatorProofs7 SimulatorWorld CauseSpec CauseProofs CauseMain ApartSpec ApartProofs ApartMain OrderSpec OrderProofs OrderRead OrderMain.
Import ListNotations.
Open Scope Qc_scope.
From Verif Require Import PairsMain.

(** ** C142  Collisions of two players at a time do not depend on the order of the players *)

(** Take two contexts that differ only in the order of their dicts, and a collision resolution that treats the two players alike when they are placed like [G] and does not move them.  If sensors and agents do not depend on the order, every collision is between two players that collide with nobody else at that instant, and those are placed like [G], then both runs agree after every number of iterations; a report may name its two players in the other order. *)
Theorem C142_contacts : forall W (c c' : ctx W) G other s0 k s, reordered c c' -> NoDup (akeys (c_sensors c)) -> (forall a b, SimulatorModel.intersects W a b = SimulatorModel.intersects W b a) ->
  stays_in_place (W := W) (g_scen (c_cfg c)) -> resolves_evenly (W := W) (g_scen (c_cfg c)) G other ->
  started c s0 -> 0 < dt (g_param (c_cfg c)) -> after s0 k s -> (forall q, In q (akeys (c_models c)) -> order_blind c s q) -> one_at_a_time s -> collided_as G s0 k ->
  exists z0 z, started c' z0 /\ after z0 k z /\ same_state_up_to other s z.
Proof. exact C142_contacts_pf. Qed.
Print Assumptions C142_contacts.

(** A complete run of the other context ends too, in the same state and with the same logs. *)
Theorem C142_run : forall W (c c' : ctx W) G other m m' fuel sf, reordered c c' -> NoDup (akeys (c_sensors c)) -> (forall a b, SimulatorModel.intersects W a b = SimulatorModel.intersects W b a) ->
  stays_in_place (W := W) (g_scen (c_cfg c)) -> resolves_evenly (W := W) (g_scen (c_cfg c)) G other ->
  valid_ctx c -> unused m -> unused m' -> 0 < dt (g_param (c_cfg c)) -> run fuel m c = Some (Ok sf) -> (forall q, In q (akeys (c_models c)) -> order_blind c sf q) -> one_at_a_time sf ->
  (forall s0, started c s0 -> collided_as G s0 fuel) -> exists zf, run fuel m' c' = Some (Ok zf) /\ same_state_up_to other sf zf /\ same_logs_all sf zf.
Proof. exact C142_run_pf. Qed.
Print Assumptions C142_run.

(** The collisions of dg-commons do not move the players ... *)
Theorem C142_in_place : forall L C env sc, stays_in_place (W := sim_world L C env) sc.
Proof. exact C142_in_place_pf. Qed.
Print Assumptions C142_in_place.

(** ... and treat two players alike if neither is inside the other and the line through the crossing points passes between the centres. *)
Theorem C142_evenly : forall L C env sc, even_handed (li_shapely L) -> resolves_evenly (W := sim_world L C env) sc (face_to_face (li_shapely L)) other_order.
Proof. exact C142_evenly_pf. Qed.
Print Assumptions C142_evenly.

(** So in the simulator of dg-commons: sensors and agents blind to the order, collisions of two players at a time, face to face. *)
Theorem C142_simulator : forall L C env (c c' : ctx (sim_world L C env)) s0 k s, reordered c c' -> NoDup (akeys (c_sensors c)) -> even_handed (li_shapely L) ->
  (forall x y, CollModel.intersects (li_shapely L) x y = CollModel.intersects (li_shapely L) y x) ->
  started c s0 -> 0 < dt (g_param (c_cfg c)) -> after s0 k s -> (forall q, In q (akeys (c_models c)) -> order_blind c s q) -> one_at_a_time s -> collided_as (W := sim_world L C env) (face_to_face (li_shapely L)) s0 k ->
  exists z0 z, started c' z0 /\ after z0 k z /\ same_state_up_to (W := sim_world L C env) other_order s z.
Proof. exact C142_simulator_pf. Qed.
Print Assumptions C142_simulator.

(** Non-vacuity: two pairs of players touch in the same iteration; listed in another order, the reports come in another order and name the players of each pair the other way round; the hypotheses hold and the velocities are exchanged in both runs. *)
Example C142_ex : let m1 := (qz 0, qz 2) in let m2 := (qf 3 2, qz 0) in let m3 := (qz 50, qz 0) in let m4 := (qf 103 2, - qz 2) in
  let c := list_ctx bumpers tt [(1%nat, m1); (2%nat, m2); (3%nat, m3); (4%nat, m4)] [(1%nat, tt); (2%nat, tt); (3%nat, tt); (4%nat, tt)] [] [] in
  let c' := list_ctx bumpers tt [(1%nat, m1); (2%nat, m2); (3%nat, m3); (4%nat, m4)] [(4%nat, tt); (3%nat, tt); (2%nat, tt); (1%nat, tt)] [] [] in
  let s := nth_st (start_of c) 1 in let other := fun r r' : SimulatorModel.report unit => r_players r' = rev (r_players r) in
  reordered c c' /\ stays_in_place (W := bumpers) tt /\ resolves_evenly (W := bumpers) tt (fun _ _ => True) other /\ started c (start_of c) /\ after (start_of c) 1 s /\
  (forall q, In q (akeys (c_models c)) -> order_blind c s q) /\ one_at_a_time s /\ (exists z0 z, started c' z0 /\ after z0 1 z /\ same_state_up_to (W := bumpers) other s z) /\
  contacts s = [(3%nat, 4%nat); (1%nat, 2%nat)] /\ contacts (nth_st (start_of c') 1) = [(2%nat, 1%nat); (4%nat, 3%nat)] /\ option_map snd (model_of s 2%nat) = Some (qz 2).
Proof.
  intros m1 m2 m3 m4 c c' s other.
  assert (S1 : started c (start_of c)) by start.
  assert (A : after (start_of c) 1 s) by (apply nth_st_after; vm_compute; reflexivity).
  assert (D : 0 < dt (g_param (c_cfg c))) by (vm_compute; reflexivity).
  assert (Ro : reordered c c') by (repeat split; try reflexivity; try (apply Permutation_refl); exact (Permutation_rev _)).
  assert (Kp : stays_in_place (W := bumpers) tt) by (intros p q t a b a' b' out H; cbn in H; injection H as <- <- _; auto).
  assert (Fa : resolves_evenly (W := bumpers) tt (fun _ _ => True) other).
  { intros p q t a b a' b' out _ _ H. cbn in H. injection H as <- <- <-. eexists. split; [reflexivity|]. cbn. split; reflexivity. }
  assert (Ob : forall q, In q (akeys (c_models c)) -> order_blind c s q).
  { intros q Kq. destruct (get_sensor c q) as [f|] eqn:Ef.
    + refine (C136_blind_pf bumpers c (start_of c) 1 s q (fun a b => a = f /\ b = f) (fun _ => True) S1 D A (C136_id_sensor_pf bumpers _ q f (fun o => eq_refl)) _ _ (fun a _ => I)); [intros f0 H0; assert (f0 = f) by congruence; auto|].
      split; [intros a g g' a1 u _ _ _ H; cbn in *; auto|auto].
    + exfalso. destruct Kq as [<-|[<-|[<-|[<-|[]]]]]; discriminate. }
  assert (Cs : contacts s = [(3%nat, 4%nat); (1%nat, 2%nat)]) by (vm_compute; reflexivity).
  assert (On : one_at_a_time s).
  { intros p q p' q' t out out' H H'. apply in_contacts in H, H'. rewrite Cs in H, H'. destruct H as [[= <- <-]|[[= <- <-]|[]]], H' as [[= <- <-]|[[= <- <-]|[]]]; intuition discriminate. }
  split; [exact Ro|]. split; [exact Kp|]. split; [exact Fa|]. split; [exact S1|]. split; [exact A|]. split; [exact Ob|]. split; [exact On|]. split.
  - refine (C142_contacts bumpers c c' (fun _ _ => True) other (start_of c) 1 s Ro _ _ Kp Fa S1 D A Ob On _); [constructor|intros a b; apply near_sym|intros j x p q out a b _ _ _ _ _; exact I].
  - split; [exact Cs|]. split; vm_compute; reflexivity.
Qed.
