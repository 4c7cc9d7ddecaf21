(** Vocabulary of the statements on scenarios. *)
From Coq Require Import String Reals List ZArith.
From Verif Require Import Base R2 LaneModel BodySpec ScenarioModel.
Import ListNotations.
Open Scope R_scope.
Local Open Scope string_scope.

(** The last predicted position is less than 20 cm from the first one. *)
Definition parked (o : dyn_obs) : Prop := exists l s, do_states o = Some (l ++ [s])%list /\ vdist (do_position o) (st_position s) < 2 / 10.
(** The types that can be simulated. *)
Definition supported (o : dyn_obs) : Prop := In (do_type o) [CAR; BICYCLE; TRUCK; BUS; PEDESTRIAN].
Definition vehicle (o : dyn_obs) : Prop := In (do_type o) [CAR; BICYCLE; TRUCK; BUS].
(** The name of the player of an obstacle. *)
Definition p_i (i : nat) : string := "P" ++ str_nat i.
Definition player_name (ego : option string) (i : nat) (name : string) : Prop := (ego = Some (p_i i) /\ name = "Ego") \/ (ego <> Some (p_i i) /\ name = p_i i).
(** The elements with a property, in order. *)
Inductive keeps {A} (P : A -> Prop) : list A -> list A -> Prop :=
| keeps_nil : keeps P [] []
| keeps_yes : forall x l k, P x -> keeps P l k -> keeps P (x :: l) (x :: k)
| keeps_no : forall x l k, ~ P x -> keeps P l k -> keeps P (x :: l) k.
(** A model starts in the initial state of the obstacle. *)
Definition starts_as (o : dyn_obs) (m : model) : Prop :=
  match m with
  | Vehicle p psi vx _ _ _ _ => p = do_position o /\ psi = do_orientation o /\ vx = do_velocity o /\ vehicle o
  | Pedestrian p psi vx => p = do_position o /\ psi = do_orientation o /\ vx = do_velocity o /\ do_type o = PEDESTRIAN
  end.
(** The lanes that the code considers for an obstacle that ends on the lanelets [final]:
    those that begin where the obstacle begins and have an id in which the digits of one of
    [final] occur. *)
Definition candidate (net : network) (p : vec) (final : list Z) (lane : lanelet) : Prop :=
  exists i merged id l r c f, In i (lanelets_at net p) /\ merged_from net i = Ok merged /\ In (id, (l, r, c)) merged /\ In f final /\ (exists before after, str_int id = before ++ str_int f ++ after) /\ from_vertices l r c = Ok lane.
(** CommonRoad: the id of a merged lane is made of the ids of its parts. *)
Definition id_of_parts (id : Z) (parts : list Z) : Prop := str_int id = fold_right append "" (map str_int parts).
