(** Vocabulary of the statements on road boundaries. *)
From Coq Require Import Reals List ZArith.
From Verif Require Import Base R2 RoadModel.
Import ListNotations.
Open Scope R_scope.

(** Points of segments, polylines and the lines of shapely. *)
Definition on_segment (a b p : vec) : Prop := exists t, 0 <= t <= 1 /\ p = vadd (vscale (1 - t) a) (vscale t b).
Definition on_path (l : list vec) (p : vec) : Prop := exists i a b, nth_error l i = Some a /\ nth_error l (S i) = Some b /\ on_segment a b p.
Definition on (g : line) (p : vec) : Prop := match g with Ring l | Line l => on_path l p | Lines ls => exists l, In l ls /\ on_path l p end.

(** The difference of a line and a polygon: of the points of the line, none that is inside
    the polygon, and all that are neither inside nor on its border. *)
Definition right_difference {P} (inside covers : P -> vec -> Prop) (difference : line -> P -> line) : Prop :=
  forall g q p, (on (difference g q) p -> on g p /\ ~ inside q p) /\ (on g p -> ~ covers q p -> on (difference g q) p).

(** The two end points of an open end of the road: where a lanelet without successor ends,
    or one without predecessor begins. *)
Definition open_end (lanelets : list road_lanelet) (a b : vec) : Prop :=
  exists ll, In ll lanelets /\
    ((rl_successor ll = [] /\ (exists l, rl_right ll = l ++ [a]) /\ exists l, rl_left ll = l ++ [b]) \/
     (rl_predecessor ll = [] /\ (exists l, rl_right ll = a :: l) /\ exists l, rl_left ll = b :: l)).
(** The border of a part of the road: the outer one and those of its holes. *)
Definition outer {P} (exterior : P -> list vec) (parts : list P) (p : vec) : Prop := exists part, In part parts /\ on_path (exterior part) p.
Definition hole {P} (interiors : P -> list (list vec)) (parts : list P) (p : vec) : Prop := exists part r, In part parts /\ In r (interiors part) /\ on_path r p.
