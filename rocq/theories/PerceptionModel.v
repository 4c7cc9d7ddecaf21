(** Model of src/dg_commons/sim/sim_perception.py.

    Shapely/CommonRoad geometry, the ray casting sensor and the attributes of
    the states are a record [geo] of arbitrary functions that may raise; every
    theorem quantifies over it. *)
From Coq Require Import QArith Qcanon ZArith List Bool Arith.
From Verif Require Import Base Num SeqModel SimulatorModel.
Import ListNotations.
Open Scope Qc_scope.

(** External code used by the filters.  [F]: shapely geometries, [P]:
    CommonRoad polygons, [Z_]: poses.  Used for [fov_sense], sim_perception.py:50-95. *)
Record geo (X F P Z_ : Type) := mkGeo {
  (* SE2Transform.from_SE2(extract_pose_from_state(state)), models/utils.py:27-37 *)
  pose_of : X -> result Z_;
  (* extract_2d_position_from_state, models/utils.py:40-41 *)
  position_of : X -> result (Qc * Qc);
  (* shapely2crPolygons, geo.py:144-151 *)
  to_cr : F -> result (list P);
  (* sensor.fov_as_polygon(obstacles) of the sensor placed at a pose *)
  fov : Z_ -> list P -> result F;
  (* shapely's a.intersects(b) *)
  hits : F -> F -> result bool;
  (* shapely's a.is_valid *)
  valid : F -> bool;
  (* shapely.validation.make_valid *)
  repair : F -> result F }.
Arguments mkGeo {X F P Z_}. Arguments pose_of {X F P Z_}. Arguments position_of {X F P Z_}.
Arguments to_cr {X F P Z_}. Arguments fov {X F P Z_}. Arguments hits {X F P Z_}.
Arguments valid {X F P Z_}. Arguments repair {X F P Z_}.

(** cytoolz.interleave: round robin over the sequences, dropping those that
    are exhausted.  Used for [fov_sense], sim_perception.py:50-95. *)
Fixpoint interleave_loop {A} (rounds : nat) (ls : list (list A)) : list A :=
  match rounds with
  | O => []
  | S r => flat_map (firstn 1) ls ++ interleave_loop r (map (@tl A) ls)
  end.
Definition interleave {A} (ls : list (list A)) : list A :=
  interleave_loop (list_max (map (@length A) ls)) ls.

Section Filters.
Context {X F P Z_ : Type} (g : geo X F P Z_).

Notation obs_t := (simobs X F).

(** A scenario, as far as the filters look at it: the shapes of its static
    obstacles. *)
Notation scen := (list F).

(** replace(obs, time=t).  Used for sim_perception.py:113. *)
Definition with_time (o : obs_t) (t : Qc) : obs_t := mkObs (o_players o) t.
(** replace(obs, players=ps).
    Used for [fov_sense], sim_perception.py:50-95; [ghost_sense], sim_perception.py:140-153. *)
Definition with_players (o : obs_t) (ps : list (player * (X * F))) : obs_t := mkObs ps (o_time o).

(** IdObsFilter.sense, sim_perception.py:36-37. *)
Definition id_sense (st : unit) (sc : scen) (o : obs_t) (pov : player) : result (unit * obs_t) := Ok (st, o).

(** FovObsFilter: the cached static obstacles and the pose left in the sensor,
    sim_perception.py:45-48 (the debug counter is dropped). *)
Record fov_filter := mkFov { fv_cache : list P; fv_pose : option Z_ }.
Definition fov_new : fov_filter := mkFov [] None.

(** Used for [fov_sense], sim_perception.py:50-95. *)
Definition others {V} (pov : player) (ps : list (player * V)) : list (player * V) :=
  filter (fun e => negb (Nat.eqb (fst e) pov)) ps.

(** One iteration of the loop, sim_perception.py:73-90.  The loop state is the
    (possibly repaired) visible region and the dict under construction.  If the
    second test raises, some exception propagates (its class may change because
    of the [finally] clause; the model keeps the original). *)
Definition fov_body (s : F * list (player * (X * F))) (e : player * (X * F)) : result (F * list (player * (X * F))) :=
  let '(region, acc) := s in
  let '(p, (x, occ)) := e in
  match hits g region occ with
  | Ok seen => Ok (region, if seen then dset acc p (x, occ) else acc)
  | Err _ =>
      match (if valid g region then Ok region else repair g region) with
      | Err e => Err e
      | Ok region' =>
          match (if valid g occ then Ok occ else repair g occ) with
          | Err e => Err e
          | Ok occ' =>
              match hits g region' occ' with
              | Err e => Err e
              | Ok seen => Ok (region', if seen then dset acc p (x, occ') else acc)
              end
          end
      end
  end.

(** FovObsFilter.sense, sim_perception.py:50-95. *)
Definition fov_sense (st : fov_filter) (sc : scen) (o : obs_t) (pov : player) : result (fov_filter * obs_t) :=
  match dgetE (o_players o) pov with Err e => Err e | Ok me =>
  match pose_of g (fst me) with Err e => Err e | Ok z =>
  match (match fv_cache st with
         | [] => match rmapM (to_cr g) sc with Err e => Err e | Ok ls => Ok (interleave ls) end
         | c => Ok c
         end) with Err e => Err e | Ok static =>
  match rmapM (fun e => to_cr g (snd (snd e))) (others pov (o_players o)) with Err e => Err e | Ok ls =>
  match fov g z (static ++ interleave ls) with Err e => Err e | Ok region =>
  match rfold fov_body (region, [(pov, me)]) (others pov (o_players o)) with Err e => Err e | Ok (_, ps) =>
  Ok (mkFov static (Some z), with_players o ps)
  end end end end end end.

(** DelayedObsFilter, sim_perception.py:104-119, around any filter whose
    objects are [S] and whose method is [inner]. *)
Record delayed (S : Type) := mkDelayed { dl_inner : S; dl_hist : list (Qc * obs_t) }.
Arguments mkDelayed {S}. Arguments dl_inner {S}. Arguments dl_hist {S}.

(** sense of DelayedObsFilter, sim_perception.py:110-119. *)
Definition delayed_sense {S} (inner : S -> scen -> obs_t -> player -> result (S * obs_t)) (latency : Qc)
  (st : delayed S) (sc : scen) (full : obs_t) (pov : player) : result (delayed S * obs_t) :=
  match inner (dl_inner st) sc full pov with Err e => Err e | Ok (s', o) =>
  let shifted := o_time o + latency in
  let hist := dl_hist st ++ [(shifted, with_time o shifted)] in
  match bisect_left (map fst hist) (o_time o) with
  | None => Err PyOther
  | Some i => match nth_error hist i with
              | None => Err PyIndexError
              | Some (_, r) => Ok (mkDelayed s' hist, r)
              end
  end end.

(** [numpy.linalg.norm(a - b) > d], without square roots: the norm is >= 0 and
    its square is the sum of squares.
    Used for [ghost_sense], sim_perception.py:140-153. *)
Definition further (a b : Qc * Qc) (d : Qc) : bool :=
  let dx := fst a - fst b in
  let dy := snd a - snd b in
  qltb d 0 || qltb (d * d) (dx * dx + dy * dy).

(** GhostObsFilter.sense, sim_perception.py:140-153 ([players] is a frozendict,
    as the simulator makes it, simulator.py:121). *)
Definition ghost_sense {S} (inner : S -> scen -> obs_t -> player -> result (S * obs_t)) (ghost : player) (further_than : Qc)
  (st : S) (sc : scen) (full : obs_t) (pov : player) : result (S * obs_t) :=
  match inner st sc full pov with Err e => Err e | Ok (s', o) =>
  if Nat.eqb pov ghost || negb (dmem (o_players o) ghost) then Ok (s', o)
  else
    match dgetE (o_players o) pov with Err e => Err e | Ok me =>
    match position_of g (fst me) with Err e => Err e | Ok a =>
    match dgetE (o_players o) ghost with Err e => Err e | Ok it =>
    match position_of g (fst it) with Err e => Err e | Ok b =>
    Ok (s', if further a b further_than then with_players o (ddel (o_players o) ghost) else o)
    end end end end
  end.
End Filters.
Arguments mkFov {P Z_}. Arguments fv_cache {P Z_}. Arguments fv_pose {P Z_}. Arguments fov_new {P Z_}.
Arguments mkDelayed {X F S}. Arguments dl_inner {X F S}. Arguments dl_hist {X F S}.
