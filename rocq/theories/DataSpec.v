(** Vocabulary of the statements on states and commands. *)
From Coq Require Import Reals List String.
From Verif Require Import Base R2 DataModel.
Import ListNotations.
Open Scope string_scope.

Definition is_num (v : pv) : Prop := exists r, v = Num r.
(** The numeric fields of a class: all but the lights. *)
Definition numeric (c : cls) : list string := filter (fun f => negb (String.eqb f "lights")) (c_fields c).
(** An object of class [c]: it has exactly the fields of the class, and they are
    numbers, except the lights. *)
Definition instance_of (c : cls) (o : obj) : Prop :=
  o_cls o = c_name c /\ map fst (o_dict o) = c_fields c /\ forall f v, In (f, v) (o_dict o) -> (f = "lights" -> exists n, v = Lights n) /\ (f <> "lights" -> is_num v).
(** The component named [f] is [r]. *)
Definition has (o : obj) (f : string) (r : R) : Prop := getattr o f = Ok (Num r).
Definition all_classes := (state_classes ++ command_classes)%list.
(** Classes without lights. *)
Definition plain (c : cls) : Prop := In c all_classes /\ c_name c <> "VehicleCommands".
