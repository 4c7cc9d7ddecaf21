(** Specifications for TrajProps. *)
From Coq Require Import QArith Qcanon ZArith List Bool Arith.
From Verif Require Import Base Num SeqModel SeqSpec VehState TrajModel.
Import ListNotations.
Open Scope Qc_scope.

(** Samples of two joined trajectories: those of [a], then those of [b] without
    its first one (all of them if [a] is empty). *)
Definition joined (a b : traj) : list (Qc * vstate) :=
  match iter a with [] => iter b | _ => iter a ++ tl (iter b) end.

(** Speed and steering agree at the seam (up to 1e-3), if there is a seam. *)
Definition seam_ok (a b : traj) : Prop :=
  forall va vb, last_of (vals a) = Some va -> nth_error (vals b) 0 = Some vb ->
    qabs (vs_vx va - vs_vx vb) < qf 1 1000 /\ qabs (vs_delta va - vs_delta vb) < qf 1 1000.

(** The state at fraction [s] of the way from [va] to [vb]. *)
Definition blend (s : Qc) (va vb : vstate) : vstate :=
  let f p := p va + s * (p vb - p va) in
  mkVS (f vs_x) (f vs_y) (f vs_psi) (f vs_vx) (f vs_delta).

(** ** Graphs *)

Definition nodes (g : graph) : list node := map fst (g_nodes g).
Definition edges (g : graph) : list (node * node) := map fst (g_edges g).
(** The stored generation of a node. *)
Definition gen_of (g : graph) (n : node) : option nat :=
  match aget node_eqb (g_nodes g) n with Some o => o | None => None end.

(** [walk g u v l]: [l] goes from [u] to [v] along edges of [g]. *)
Inductive walk (g : graph) : node -> node -> list node -> Prop :=
| walk_here u : In u (nodes g) -> walk g u u [u]
| walk_step u v w l : In (u, v) (edges g) -> walk g v w l -> walk g u w (u :: l).

(** What networkx promises about the graph [g]. *)
Record nx_ok (N : nx) (g : graph) : Prop := mkNxOk
  { nxo_dag : nx_is_dag N g = true <-> forall u l, walk g u u l -> l = [u];
    nxo_path : forall u v, nx_has_path N g u v = true <-> exists l, walk g u v l;
    nxo_short : forall u v, nx_has_path N g u v = true ->
      walk g u v (nx_shortest_path N g u v) /\
      forall l, walk g u v l -> (length (nx_shortest_path N g u v) <= length l)%nat }.

(** Graphs built with the class: nodes added with a generation, edges added for
    trajectories of at least two samples. *)
Inductive built : graph -> Prop :=
| built_empty : built g_empty
| built_node g t s gen : built g -> built (add_node g (Timed t s) (Some gen))
| built_edge g states tr cmds g' : built g -> obtainable states -> (2 <= length (tss states))%nat ->
    add_edge g states tr cmds = Ok g' -> built g'.

(** Samples of a node path. *)
Definition sample_of (n : node) : Qc * vstate :=
  match n with Timed t s => (t, s) | Bare s => (0, s) end.

(** The samples stored on an edge. *)
Definition on_edge (g : graph) (h : node * node) : list (Qc * vstate) :=
  match aget edge_eqb (g_edges g) h with Some d => iter (ed_transition d) | None => [] end.

(** Pieces laid end to end, each without its first sample except the first. *)
Definition stitch (l : list (list (Qc * vstate))) : list (Qc * vstate) :=
  match l with [] => [] | x :: r => x ++ flat_map (@tl _) r end.

(** Every transition runs from the time of its edge's source to that of its
    target. *)
Definition transitions_span_edges (g : graph) : Prop :=
  forall u v d, aget edge_eqb (g_edges g) (u, v) = Some d ->
  obtainable (ed_transition d) /\ get_start (ed_transition d) = Ok (fst (sample_of u)) /\
  get_end (ed_transition d) = Ok (fst (sample_of v)).
