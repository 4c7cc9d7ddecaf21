(** Model of src/dg_commons/maps/road_bounds.py.  The operations of shapely are parameters. *)
From Coq Require Import Reals List ZArith.
From Verif Require Import Base R2 LaneModel.
Import ListNotations.
Open Scope R_scope.

(** A CommonRoad lanelet, as far as road_bounds.py:19-29 looks at it. *)
Record road_lanelet := mkRL { rl_polygon : list vec; rl_left : list vec; rl_right : list vec; rl_successor : list Z; rl_predecessor : list Z }.
(** The results of shapely: LinearRing, LineString (maybe empty), MultiLineString.
    Used for [parts_loop], road_bounds.py:40-47; [build_road_boundary_obstacle], road_bounds.py:7-48. *)
Inductive line := Ring (l : list vec) | Line (l : list vec) | Lines (ls : list (list vec)).
(** g.geoms: only a MultiLineString has it.
    Used for [parts_loop], road_bounds.py:40-47. *)
Definition geoms (g : line) : result (list line) := match g with Lines ls => Ok (map Line ls) | _ => Err PyAttributeError end.

Section Road.
(** Polygons with their exterior and interiors. *)
Context {P : Type}.
Variable exterior : P -> list vec.
Variable interiors : P -> list (list vec).
(** Polygon(..).buffer(r) and LineString([a, b]).buffer(r) *)
Variable buffer_poly : list vec -> R -> P.
Variable buffer_line : vec -> vec -> R -> P.
(** unary_union(..): the parts of the result (none, one Polygon, or a MultiPolygon),
    road_bounds.py:31-38. *)
Variable unary_union : list P -> list P.
(** g.difference(p) *)
Variable difference : line -> P -> line.

(** The gates of one lanelet, road_bounds.py:22-29. *)
Definition gates_of (buffer : R) (ll : road_lanelet) : result (list P) :=
  bind (match rl_successor ll with
        | [] => bind (item_last (rl_right ll)) (fun pt1 => bind (item_last (rl_left ll)) (fun pt2 => Ok [buffer_line pt1 pt2 (buffer * 2)]))
        | _ :: _ => Ok []
        end) (fun exits =>
  bind (match rl_predecessor ll with
        | [] => bind (item (rl_right ll) 0) (fun pt1 => bind (item (rl_left ll) 0) (fun pt2 => Ok [buffer_line pt1 pt2 (buffer * 2)]))
        | _ :: _ => Ok []
        end) (fun entrances => Ok (exits ++ entrances))).
(** The loop over the lanelets, road_bounds.py:20-29. *)
Fixpoint lanelets_loop (buffer : R) (lls : list road_lanelet) : result (list P * list P) :=
  match lls with
  | [] => Ok ([], [])
  | ll :: r => bind (gates_of buffer ll) (fun gs => bind (lanelets_loop buffer r) (fun pg => Ok (buffer_poly (rl_polygon ll) buffer :: fst pg, gs ++ snd pg)))
  end.
(** The loop over the parts, road_bounds.py:40-47. *)
Fixpoint parts_loop (gates : list P) (parts : list P) : result (list line) :=
  match parts with
  | [] => Ok []
  | geo :: r =>
      let ext_bounds := fold_left difference gates (Ring (exterior geo)) in
      bind (geoms ext_bounds) (fun gs => bind (parts_loop gates r) (fun rest => Ok (map Ring (interiors geo) ++ gs ++ rest)))
  end.
(** build_road_boundary_obstacle, road_bounds.py:7-48. *)
Definition build_road_boundary_obstacle (lanelets : list road_lanelet) (buffer : R) : result (list line * list P) :=
  bind (lanelets_loop buffer lanelets) (fun pg =>
  bind (parts_loop (snd pg) (unary_union (fst pg))) (fun bounds => Ok (bounds, snd pg))).
End Road.
