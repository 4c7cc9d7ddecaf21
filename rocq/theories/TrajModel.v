(** Model of src/dg_commons/planning/trajectory.py. *)
From Coq Require Import QArith Qcanon ZArith List Bool Arith.
From Verif Require Import Base Num SeqModel VehState.
Import ListNotations.
Open Scope Qc_scope.

(** Trajectory, trajectory.py:17-22: a sampled sequence of VehicleState whose
    [XT] is always defined. *)
Definition traj := seq vstate.

(** Trajectory(values=..., timestamps=...): sequence.py:46-64. *)
Definition new_traj (ts : list Qc) (vs : list vstate) : result traj := new_seq true ts vs.

(** is_empty, trajectory.py:48-49. *)
Definition tr_is_empty (a : traj) : bool :=
  (length (tss a) =? 0)%nat && (length (vals a) =? 0)%nat.

(** is_connectable, trajectory.py:38-46. *)
Definition is_connectable (a b : traj) (tol : Qc) : result bool :=
  if tr_is_empty a || tr_is_empty b then Ok true
  else
    match get_end a, get_start b with
    | Err e, _ | _, Err e => Err e
    | Ok te, Ok ts =>
        match at_ a te, at_ b ts with
        | Err e, _ | _, Err e => Err e
        | Ok va, Ok vb =>
            let d := vs_sub va vb in
            Ok (qltb (qabs (vs_vx d)) tol && qltb (qabs (vs_delta d)) tol)
        end
    end.

(** The default tolerance 1e-3, trajectory.py:38 and 92. *)
Definition tol_default : Qc := qf 1 1000.

(** The common tail of merge (56-65) and merge_unsafe (98-107). *)
Definition join (a b : traj) : result traj :=
  if tr_is_empty a then new_traj (tss a ++ tss b) (vals a ++ vals b)
  else new_traj (tss a ++ tl (tss b)) (vals a ++ tl (vals b)).

(** merge, trajectory.py:51-65. *)
Definition merge (a b : traj) : result traj :=
  match is_connectable a b tol_default with
  | Err e => Err e
  | Ok c => if c then join a b else Err PyAssertionError
  end.

(** merge_unsafe, trajectory.py:92-107.  [other.timestamps[0]] raises
    IndexError on an empty [other]. *)
Definition merge_unsafe (a b : traj) (tol : Qc) : result traj :=
  if tr_is_empty a then join a b
  else match item_pred (tss a) 0, item (tss b) 0 with
       | Err e, _ | _, Err e => Err e
       | Ok te, Ok ts => if qleb (qabs (te - ts)) tol then join a b else Err PyAssertionError
       end.

(** The points inserted after [tp], trajectory.py:123-126: [at_interp] at
    [i * dt + tp] for i in range(1, n+1). *)
Fixpoint up_points (a : traj) (tp dt : Qc) (i n : nat) : result (list (Qc * vstate)) :=
  match n with
  | O => Ok []
  | S m =>
      let ts := qn i * dt + tp in
      match at_interp vs_mul vs_add a ts with
      | Err e => Err e
      | Ok v => match up_points a tp dt (S i) m with
                | Err e => Err e
                | Ok r => Ok ((ts, v) :: r)
                end
      end
  end.

(** The loop over consecutive timestamps, trajectory.py:118-126. *)
Fixpoint up_loop (a : traj) (n : nat) (ts : list Qc) : result (list (Qc * vstate)) :=
  match ts with
  | tp :: ((tn :: _) as r) =>
      match at_ a tp with
      | Err e => Err e
      | Ok v =>
          match up_points a tp ((tn - tp) / qn (S n)) 1 n with
          | Err e => Err e
          | Ok p => match up_loop a n r with
                    | Err e => Err e
                    | Ok q => Ok ((tp, v) :: p ++ q)
                    end
          end
      end
  | _ => Ok []
  end.

(** upsample, trajectory.py:109-131. *)
Definition upsample (a : traj) (n : nat) : result traj :=
  match up_loop a n (tss a) with
  | Err e => Err e
  | Ok p =>
      match item_pred (tss a) 0 with
      | Err e => Err e
      | Ok tl =>
          match at_ a tl with
          | Err e => Err e
          | Ok vl => new_traj (map fst p ++ [tl]) (map snd p ++ [vl])
          end
      end
  end.

(** Destructuring an IterateDT dataclass instance into five names: a dataclass
    is not iterable, so this raises TypeError (sequence.py:181-187). *)
Definition unpack5 {X} (it : iterate_dt X) : result (Qc * Qc * Qc * X * X) := Err PyTypeError.

(** commands_plan_from_trajectory, trajectory.py:152-158. *)
Definition commands_plan_from_trajectory (a : traj) : result (seq vcmd) :=
  match iterate_with_dt a with
  | Err e => Err e
  | Ok its =>
      match rmapM (fun it =>
        match unpack5 it with
        | Err e => Err e
        | Ok (t0, _, dt, v0, v1) =>
            if qeqb dt 0 then Err PyZeroDivisionError
            else Ok (t0, mkVC ((vs_vx v1 - vs_vx v0) / dt) ((vs_delta v1 - vs_delta v0) / dt))
        end) its with
      | Err e => Err e
      | Ok l => new_seq true (map fst l) (map snd l)
      end
  end.

(** ** TrajectoryGraph, trajectory.py:164-285 *)

(** Objects used as graph nodes: a pair (timestamp, state), or a bare state
    (what the membership test of add_edge looks for, 179).
    Used for [add_node], trajectory.py:167-168; [check_node], trajectory.py:170-172. *)
Inductive node := Timed (t : Qc) (s : vstate) | Bare (s : vstate).

(** Used for [add_node], trajectory.py:167-168; [add_edge], trajectory.py:174-183. *)
Definition node_eqb (a b : node) : bool :=
  match a, b with
  | Timed t s, Timed u r => qeqb t u && vs_eqb s r
  | Bare s, Bare r => vs_eqb s r
  | _, _ => false
  end.
Definition edge_eqb (a b : node * node) : bool :=
  node_eqb (fst a) (fst b) && node_eqb (snd a) (snd b).

(** Edge data: the "transition" entry and, if the caller passed it, the
    "commands" entry.
    Used for [add_node], trajectory.py:167-168; [check_node], trajectory.py:170-172. *)
Record edata := mkED { ed_transition : traj; ed_commands : option vcmd }.

(** The networkx DiGraph: nodes with their "gen" attribute (None: no such
    attribute), edges with their data, both in insertion order.
    Used for [add_node], trajectory.py:167-168; [check_node], trajectory.py:170-172. *)
Record graph := mkG { g_nodes : list (node * option nat); g_edges : list ((node * node) * edata) }.

(** The graph of a new object, trajectory.py:164-165. *)
Definition g_empty : graph := mkG [] [].

(** Used for [add_node], trajectory.py:167-168; [check_node], trajectory.py:170-172. *)
Definition has_node (g : graph) (n : node) : bool := existsb (fun p => node_eqb (fst p) n) (g_nodes g).

(** add_node, trajectory.py:167-168 with networkx: update the attributes of an
    existing node, or add it.  [gen] is the attribute, if passed. *)
Definition add_node (g : graph) (n : node) (gen : option nat) : graph :=
  match gen, has_node g n with
  | None, true => g
  | _, _ => mkG (aset node_eqb (g_nodes g) n gen) (g_edges g)
  end.

(** check_node, trajectory.py:170-172. *)
Definition check_node (g : graph) (n : node) : result unit :=
  if has_node g n then Ok tt else Err PyValueError.

(** networkx add_edge: adds missing end nodes, updates the edge data
    dictionary with the given attributes.  Used for [add_edge], trajectory.py:174-183. *)
Definition nx_add_edge (g : graph) (u v : node) (tr : traj) (cmds : option vcmd) : graph :=
  let g1 := if has_node g u then g else add_node g u None in
  let g2 := if has_node g1 v then g1 else add_node g1 v None in
  let d := match aget edge_eqb (g_edges g2) (u, v) with
           | Some d => mkED tr (match cmds with Some c => Some c | None => ed_commands d end)
           | None => mkED tr cmds
           end in
  mkG (g_nodes g2) (aset edge_eqb (g_edges g2) (u, v) d).

(** add_edge, trajectory.py:174-183. *)
Definition add_edge (g : graph) (states transition : traj) (cmds : option vcmd) : result graph :=
  match get_start states, get_end states with
  | Err e, _ | _, Err e => Err e
  | Ok t0, Ok t1 =>
      match at_ states t0, at_ states t1 with
      | Err e, _ | _, Err e => Err e
      | Ok source, Ok target =>
          match check_node g (Timed t0 source) with
          | Err e => Err e
          | Ok _ =>
              if negb (has_node g (Bare target)) then
                match aget node_eqb (g_nodes g) (Timed t0 source) with
                | Some (Some gen) =>
                    Ok (nx_add_edge (add_node g (Timed t1 target) (Some (S gen)))
                          (Timed t0 source) (Timed t1 target) transition cmds)
                | _ => Err PyKeyError
                end
              else Ok (nx_add_edge g (Timed t0 source) (Timed t1 target) transition cmds)
          end
      end
  end.

(** networkx queries used by the class, as parameters: is_directed_acyclic_graph,
    has_path and shortest_path.
    Used for [get_trajectory], trajectory.py:264-281; [get_transition], trajectory.py:245-262. *)
Record nx := mkNX
  { nx_is_dag : graph -> bool;
    nx_has_path : graph -> node -> node -> bool;
    nx_shortest_path : graph -> node -> node -> list node }.

(** Used for [get_trajectory], trajectory.py:264-281; [commands_on_trajectory], trajectory.py:223-243. *)
Definition node_time (n : node) : result Qc :=
  match n with Timed t _ => Ok t | Bare _ => Err PyTypeError end.
Definition node_state (n : node) : result vstate :=
  match n with Timed _ s => Ok s | Bare _ => Err PyTypeError end.

(** check_node twice, then has_path (230-235, 251-256, 269-273). *)
Definition path_of (N : nx) (g : graph) (s t : node) : result (list node) :=
  match check_node g s, check_node g t with
  | Err e, _ | _, Err e => Err e
  | Ok _, Ok _ => if nx_has_path N g s t then Ok (nx_shortest_path N g s t) else Err PyValueError
  end.

(** zip(nodes[:-1], nodes[1:]).
    Used for [get_transition], trajectory.py:245-262; [commands_on_trajectory], trajectory.py:223-243. *)
Fixpoint hops (l : list node) : list (node * node) :=
  match l with a :: ((b :: _) as r) => (a, b) :: hops r | _ => [] end.

(** get_trajectory, trajectory.py:264-281. *)
Definition get_trajectory (N : nx) (g : graph) (s t : node) : result traj :=
  match path_of N g s t with
  | Err e => Err e
  | Ok nodes =>
      match rmapM node_time nodes, rmapM node_state nodes with
      | Ok ts, Ok vs => new_traj ts vs
      | Err e, _ | _, Err e => Err e
      end
  end.

(** get_edge_data(u, v) is None when there is no such edge; indexing None
    raises TypeError.
    Used for [get_transition], trajectory.py:245-262; [commands_on_trajectory], trajectory.py:223-243. *)
Definition edge_data (g : graph) (h : node * node) : result edata :=
  match aget edge_eqb (g_edges g) h with Some d => Ok d | None => Err PyTypeError end.

(** get_transition, trajectory.py:245-262. *)
Definition get_transition (N : nx) (g : graph) (s t : node) : result traj :=
  match path_of N g s t with
  | Err e => Err e
  | Ok nodes =>
      match new_traj [] [] with
      | Err e => Err e
      | Ok t0 => rfold (fun tr h => match edge_data g h with
                                    | Err e => Err e
                                    | Ok d => merge_unsafe tr (ed_transition d) tol_default
                                    end) t0 (hops nodes)
      end
  end.

(** commands_on_trajectory, trajectory.py:223-243. *)
Definition commands_on_trajectory (N : nx) (g : graph) (tr : traj) : result (seq vcmd) :=
  match item (tss tr) 0, item (vals tr) 0, item_pred (tss tr) 0, item_pred (vals tr) 0 with
  | Ok t0, Ok v0, Ok t1, Ok v1 =>
      match path_of N g (Timed t0 v0) (Timed t1 v1) with
      | Err e => Err e
      | Ok nodes =>
          match rmapM (fun h => match edge_data g h with
                                | Err e => Err e
                                | Ok d => match ed_commands d with Some c => Ok c | None => Err PyKeyError end
                                end) (hops nodes),
                rmapM (fun h => node_time (fst h)) (hops nodes) with
          | Ok cs, Ok ts => new_seq true ts cs
          | Err e, _ | _, Err e => Err e
          end
      end
  | _, _, _, _ => Err PyIndexError
  end.

(** in_degree / out_degree zero (195-198). *)
Definition roots (g : graph) : list node :=
  filter (fun n => negb (existsb (fun e => node_eqb (snd (fst e)) n) (g_edges g))) (map fst (g_nodes g)).
Definition leaves (g : graph) : list node :=
  filter (fun n => negb (existsb (fun e => node_eqb (fst (fst e)) n) (g_edges g))) (map fst (g_nodes g)).

(** get_all_trajectories, trajectory.py:205-221, and get_all_transitions,
    185-203.  The returned set is modelled by the list of added elements. *)
Definition all_from_root (N : nx) (g : graph) (get : node -> node -> result traj) : result (list traj) :=
  if nx_is_dag N g then
    match roots g with
    | [source] => rmapM (fun target => get source target) (leaves g)
    | _ => Err PyAssertionError
    end
  else Err PyAssertionError.
Definition get_all_trajectories (N : nx) (g : graph) : result (list traj) :=
  all_from_root N g (get_trajectory N g).
Definition get_all_transitions (N : nx) (g : graph) : result (list traj) :=
  all_from_root N g (get_transition N g).
