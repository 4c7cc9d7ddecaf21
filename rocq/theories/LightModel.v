(** Model of the colours of the lights: models/vehicle_ligths.py and the two functions at
    the end of simulator_animation.py.  Numbers are rationals. *)
From Coq Require Import String QArith Qround ZArith List Bool.
From Verif Require Import Base.
Import ListNotations.
Local Open Scope string_scope.

(** The colours of vehicle_ligths.py:49-54 are six different tuples. *)
Inductive color := white | yellow | red | red_more | orange | green.
Definition color_eqb (a b : color) : bool :=
  match a, b with
  | white, white | yellow, yellow | red, red | red_more, red_more | orange, orange | green, green => true
  | _, _ => false
  end.
(** LightsColors, vehicle_ligths.py:41-46. *)
Record lights_colors := mkLC { front_left : color; front_right : color; back_left : color; back_right : color }.

(** phase2colors, vehicle_ligths.py:56-79.  Its values are mutable objects: the table is a
    part of the state. *)
Definition table := list (string * lights_colors).
Definition phase2colors : table :=
  [("none", mkLC white white red red); ("headlights", mkLC yellow yellow red red); ("turn_left", mkLC orange white orange red);
   ("turn_right", mkLC white orange red orange); ("hazard", mkLC orange orange orange orange)].
(** lightscmd2phases, vehicle_ligths.py:81-89. *)
Definition lightscmd2phases : list (string * list string) :=
  [("none", ["none"]); ("headlights", ["headlights"]); ("turn_left", ["turn_left"; "none"]); ("turn_right", ["turn_right"; "none"]); ("hazard", ["hazard"; "none"])].

(** np.round: to the nearest whole number, to the even one in the middle.
    Used for [phase_at], vehicle_ligths.py:95-96. *)
Definition np_round (q : Q) : Z :=
  let f := Qfloor q in let d := (q - inject_Z f)%Q in
  match (d ?= 1 # 2)%Q with Lt => f | Gt => (f + 1)%Z | Eq => if Z.even f then f else (f + 1)%Z end.
(** The phase chosen in get_phased_lights, vehicle_ligths.py:95-96. *)
Definition phase_at (phases : list string) (t : Q) : result string :=
  let phase_index := np_round (t / (4 # 10)) in
  match nth_error phases (Z.to_nat (phase_index mod Z.of_nat (length phases))) with Some p => Ok p | None => Err PyIndexError end.

(** lights_colors_from_lights_cmd, simulator_animation.py:233-241, with
    get_phased_lights, vehicle_ligths.py:94-98: the object returned is the entry of the
    table, which is changed in place. *)
Definition brake_side (c : color) : color := if color_eqb c red then red_more else c.
Definition lights_colors_from_lights_cmd (tab : table) (lights_cmd : string) (acc t : Q) : result (table * lights_colors) :=
  bind (agetE String.eqb lightscmd2phases lights_cmd) (fun phases =>
  bind (phase_at phases t) (fun phase =>
  bind (agetE String.eqb tab phase) (fun c =>
  if negb (Qle_bool 0 acc) then
    let c' := mkLC (front_left c) (front_right c) (brake_side (back_left c)) (brake_side (back_right c)) in
    Ok (aset String.eqb tab phase c', c')
  else Ok (tab, c)))).
(** get_lights_colors_from_cmds, simulator_animation.py:223-230; [None] for commands without
    the attributes. *)
Definition get_lights_colors_from_cmds (tab : table) (lights : option string) (acc : option Q) (t : Q) : result (table * option lights_colors) :=
  match lights, acc with
  | Some l, Some a => bind (lights_colors_from_lights_cmd tab l a t) (fun r => Ok (fst r, Some (snd r)))
  | _, _ => Ok (tab, None)
  end.
(** The table after some queries (lights, acc, t); those that raise leave it alone.
    Calls of get_lights_colors_from_cmds, simulator_animation.py:223-230, one after the other. *)
Definition ask (tab : table) (q : option string * option Q * Q) : table :=
  let '(l, a, t) := q in match get_lights_colors_from_cmds tab l a t with Ok (tab', _) => tab' | Err _ => tab end.
Definition after (qs : list (option string * option Q * Q)) : table := fold_left ask qs phase2colors.
