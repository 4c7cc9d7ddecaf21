(** Model of src/dg_commons/sim/collision_visualisation.py and of
    get_impact_point_direction of src/dg_commons/sim/collision_utils.py, over the reals. *)
From Coq Require Import Reals List Bool Arith.
From Verif Require Import Base R2 GeoModel CollModel.
Import ListNotations.
Open Scope R_scope.

(** get_impact_point_direction, collision_utils.py:74-79. *)
Definition get_impact_point_direction (xy : vec) (psi : R) (impact_point : vec) : R :=
  atan2 (snd impact_point - snd xy) (fst impact_point - fst xy) - psi.

(** What plot_collision adds to the picture.  Colours that are the same for all reports are in
    the names of the constructors; [colour] is an index into the colour map.  Offsets that are
    None stand for nan arrays.  Line widths, transparency, zorders and the legend
    (collision_visualisation.py:144-150) are not modelled. *)
Inductive mark (Loc : Type) :=
| Dot (at_ : vec)                                   (* plt.plot(..., "o"), 35 *)
| NormalArrow (at_ : vec) (by_ : option vec)        (* red arrow, 37 *)
| Outline (colour : nat) (path : list vec)          (* 47 *)
| NameText (at_ : vec) (player : nat)               (* 53-55 *)
| BeforeArrow (at_ by_ : vec)                       (* orange, 62-73 *)
| AfterArrow (at_ : vec) (by_ : option vec)         (* green, 74-85 *)
| TurnArrow (from_ to_ : vec)                       (* black, added to the figure, 88-95 *)
| BeforeSpin (at_ : vec) (omega : R)                (* orange text, 96-104 *)
| AfterSpin (at_ : vec) (omega : option R)          (* green text, 105-113 *)
| ContactArrow (colour : nat) (at_ by_ : vec)       (* 118-129 *)
| Area (path : list vec)                            (* plt.fill, 133 *)
| AreaName (at_ : vec) (l : Loc).                   (* 135-142 *)
Arguments Dot {Loc}. Arguments NormalArrow {Loc}. Arguments Outline {Loc}. Arguments NameText {Loc}. Arguments BeforeArrow {Loc}.
Arguments AfterArrow {Loc}. Arguments TurnArrow {Loc}. Arguments BeforeSpin {Loc}. Arguments AfterSpin {Loc}. Arguments ContactArrow {Loc}.
Arguments Area {Loc}. Arguments AreaName {Loc}.

Section Plot.
Context {Sh Loc : Type} (sh : shapely Sh).
(** shape.exterior.xy; only polygons have an exterior. *)
Variable exterior : Sh -> result (list vec).
(** sim_log.at_interp(t): the state.x and state.y of the logged players (SeqModel.v and
    AnimModel.v model the log itself). *)
Variable at_interp : R -> result (list (nat * vec)).

(** The number of colours of matplotlib's map Dark2, collision_visualisation.py:39-41. *)
Definition n_colors : nat := 8.

(** The loop over the locations, collision_visualisation.py:131-142. *)
Fixpoint area_marks (locations : list (Loc * Sh)) : result (list (mark Loc)) :=
  match locations with
  | [] => Ok []
  | (loc_str, loc_shape) :: rest =>
      match exterior loc_shape with Err e => Err e | Ok path =>
      match area_marks rest with Err e => Err e | Ok l => Ok (Area path :: AreaName (centroid sh loc_shape) loc_str :: l) end end
  end.

(** The body of the loop over the players, collision_visualisation.py:44-142. *)
Definition player_marks (entries : list (nat * vec)) (P : vec) (i player : nat) (p_report : option (player_report Loc)) : result (list (mark Loc)) :=
  if n_colors <=? i then Err PyIndexError else
  match p_report with None => Err PyAttributeError | Some pr =>
  match exterior (pr_footprint pr) with Err e => Err e | Ok path =>
  let c := match aget Nat.eqb entries player with Some xy => xy | None => centroid sh (pr_footprint pr) end in
  let vel_scale := 3 / 10 in
  let vel := vscale vel_scale (fst (pr_velocity pr)) in
  let vel_after := option_map (fun va => vscale vel_scale (fst va)) (pr_velocity_after pr) in
  let shift := 1 / 10 in
  let ap := vsub P c in
  let omega := snd (pr_velocity pr) in
  let vel_atP := vscale vel_scale (velocity_of_P_given_A (vscale (1 / vel_scale) vel) omega ap) in
  match area_marks (pr_locations pr) with Err e => Err e | Ok areas =>
  Ok (Outline i path :: NameText c player :: BeforeArrow c vel :: AfterArrow c vel_after ::
      TurnArrow (fst c - shift, snd c) (fst c + shift, snd c) ::
      BeforeSpin (fst c, snd c + 4 * shift) omega :: AfterSpin (fst c, snd c + 2 * shift) (option_map snd (pr_velocity_after pr)) ::
      ContactArrow i P vel_atP :: areas)
  end end end.

(** Used for [plot_collision], collision_visualisation.py:28-151. *)
Fixpoint players_marks (entries : list (nat * vec)) (P : vec) (i : nat) (players : list (nat * option (player_report Loc))) : result (list (mark Loc)) :=
  match players with
  | [] => Ok []
  | (player, p_report) :: rest =>
      match player_marks entries P i player p_report with Err e => Err e | Ok l =>
      match players_marks entries P (S i) rest with Err e => Err e | Ok l' => Ok (l ++ l') end end
  end.

(** plot_collision, collision_visualisation.py:28-151. *)
Definition plot_collision (r : report Loc) : result (list (mark Loc)) :=
  match at_interp (rep_time r) with Err e => Err e | Ok entries =>
  match rep_point r with None => Err PyAttributeError | Some P =>
  match players_marks entries P 0 (rep_players r) with Err e => Err e | Ok l =>
  Ok (Dot P :: NormalArrow P (option_map (vscale (2 / 10)) (rep_normal r)) :: l)
  end end end.
End Plot.
