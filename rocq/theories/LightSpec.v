(** Vocabulary of the statements on lights. *)
From Coq Require Import String QArith ZArith List.
From Verif Require Import LightModel.
Import ListNotations.
Local Open Scope string_scope.

(** Blinkers are on around the multiples of 0.8 seconds. *)
Definition blink_on (t : Q) : Prop := exists m : Z, (- (1 # 5) <= t - (4 # 5) * inject_Z m <= 1 # 5)%Q.
(** What is to be shown at a time for a command. *)
Inductive shows : string -> Q -> string -> Prop :=
| shows_steady : forall l t, In l ["none"; "headlights"] -> shows l t l
| shows_on : forall l t, In l ["turn_left"; "turn_right"; "hazard"] -> blink_on t -> shows l t l
| shows_off : forall l t, In l ["turn_left"; "turn_right"; "hazard"] -> ~ blink_on t -> shows l t "none".
(** The colours of what is shown, and the brighter rear lights of a braking vehicle. *)
Inductive colors_of : string -> lights_colors -> Prop :=
| c_none : colors_of "none" (mkLC white white red red)
| c_head : colors_of "headlights" (mkLC yellow yellow red red)
| c_left : colors_of "turn_left" (mkLC orange white orange red)
| c_right : colors_of "turn_right" (mkLC white orange red orange)
| c_hazard : colors_of "hazard" (mkLC orange orange orange orange).
Definition brighter (c : color) : color := match c with red => red_more | _ => c end.
Definition with_brakes (c : lights_colors) : lights_colors := mkLC (front_left c) (front_right c) (brighter (back_left c)) (brighter (back_right c)).
Definition commands : list string := ["none"; "headlights"; "turn_left"; "turn_right"; "hazard"].
