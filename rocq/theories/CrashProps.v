(* Generated from tools/Crash.src by tools/gen_props.py. *)
(** Properties of the pictures of collisions. *)
From Coq Require Import Reals Lra Psatz List Bool Arith Lia.
From Verif Require Import Base R2 GeoModel GeoSpec GeoProofs DictLemmas AssocLemmas CollModel CollSpec CollProofs CollExamples CrashModel CrashSpec.
Import ListNotations.
Open Scope R_scope.
From Verif Require Import CrashMain.

(** ** C101 *)

(** The picture has the point of impact, the normal, and of every player of the report just
    what [shown] says, at the place where the log has it at the time of the collision. *)
Theorem C101_picture : forall Sh Loc (sh : shapely Sh) exterior at_interp (r : report Loc) marks,
  plot_collision sh exterior at_interp r = Ok marks -> exists P entries, rep_point r = Some P /\ at_interp (rep_time r) = Ok entries /\
  forall m, In m marks <-> m = Dot P \/ m = NormalArrow P (option_map (fun n => (2 / 10 * fst n, 2 / 10 * snd n)) (rep_normal r)) \/
    exists i p pr c, nth_error (rep_players r) i = Some (p, Some pr) /\ centred sh entries p pr c /\ shown sh exterior P i p pr c m.
Proof. exact C101_picture_pf. Qed.
Print Assumptions C101_picture.

(** There is a picture just when the log reaches back to the time of the collision, the report
    has a point of impact and a part for each player, of which there are at most eight, and the
    shapes are polygons. *)
Theorem C101_defined : forall Sh Loc (sh : shapely Sh) exterior at_interp (r : report Loc),
  (exists marks, plot_collision sh exterior at_interp r = Ok marks) <->
  (exists entries, at_interp (rep_time r) = Ok entries) /\ rep_point r <> None /\ (length (rep_players r) <= 8)%nat /\
  forall p o, In (p, o) (rep_players r) -> exists pr path, o = Some pr /\ exterior (pr_footprint pr) = Ok path /\ forall k s, In (k, s) (pr_locations pr) -> exists path, exterior s = Ok path.
Proof. exact C101_defined_pf. Qed.
Print Assumptions C101_defined.

(** A collision that the simulator could not resolve, whose report is made by get_empty, cannot
    be drawn. *)
Theorem C101_unresolved_refuted : forall Sh Loc (sh : shapely Sh) exterior at_interp (players : list (nat * option (player_report Loc))) t entries,
  at_interp t = Ok entries -> plot_collision sh exterior at_interp (get_empty players t) = Err PyAttributeError.
Proof. exact C101_unresolved_refuted_pf. Qed.
Print Assumptions C101_unresolved_refuted.

(** The arrow of the rotation does not show it: it is the same when everybody turns the other
    way round. *)
Theorem C101_turn_refuted : forall Sh Loc (sh : shapely Sh) exterior at_interp (r : report Loc) marks,
  plot_collision sh exterior at_interp r = Ok marks -> exists marks', plot_collision sh exterior at_interp (other_way_round r) = Ok marks' /\
  forall a b, In (TurnArrow a b) marks <-> In (TurnArrow a b) marks'.
Proof. exact C101_turn_refuted_pf. Qed.
Print Assumptions C101_turn_refuted.

(** The picture of a collision that the simulator resolved, with the players in the log where
    they collided: it shows that the points in contact move towards each other, and each
    player's velocity changes along the normal. *)
Theorem C101_resolved : forall Sh M Loc (sh : shapely Sh) (md : model_ops (Sh := Sh) M Loc) exterior at_interp a b ms sc t ms' rep marks entries n,
  flag_only md -> a <> b -> resolve_collision sh md a b ms sc t = (ms', Ok (Some rep)) -> rep_normal rep = Some n ->
  plot_collision sh exterior at_interp rep = Ok marks -> at_interp t = Ok entries ->
  (forall p m, p = a \/ p = b -> aget Nat.eqb ms p = Some m -> aget Nat.eqb entries p = Some (cog md m)) ->
  exists P ca cb da db ba bb aa ab, In (Dot P) marks /\ In (NormalArrow P (Some (vscale (2 / 10) n))) marks /\
    In (NameText ca a) marks /\ In (NameText cb b) marks /\ In (ContactArrow 0 P da) marks /\ In (ContactArrow 1 P db) marks /\ 0 <= vdot (vsub da db) n /\
    In (BeforeArrow ca ba) marks /\ In (AfterArrow ca (Some aa)) marks /\ vcross (vsub aa ba) n = 0 /\
    In (BeforeArrow cb bb) marks /\ In (AfterArrow cb (Some ab)) marks /\ vcross (vsub ab bb) n = 0.
Proof. exact C101_resolved_pf. Qed.
Print Assumptions C101_resolved.

(** The same against an obstacle of the environment, which is not in the log: it is drawn at
    rest, around its centre. *)
Theorem C101_resolved_environment : forall Sh M Loc (sh : shapely Sh) (md : model_ops (Sh := Sh) M Loc) ew env exterior at_interp a m bs gb t m' rep marks entries n,
  flag_only md -> a <> env -> resolve_collision_with_environment sh md ew env a m bs gb t = (m', Ok (Some rep)) -> rep_normal rep = Some n ->
  plot_collision sh exterior at_interp rep = Ok marks -> at_interp t = Ok entries -> aget Nat.eqb entries a = Some (cog md m) -> aget Nat.eqb entries env = None ->
  exists P s d ba aa, In (Dot P) marks /\ In (NormalArrow P (Some (vscale (2 / 10) n))) marks /\ In (NameText (cog md m) a) marks /\
    In (ContactArrow 0 P d) marks /\ 0 <= vdot d n /\ In (BeforeArrow (cog md m) ba) marks /\ In (AfterArrow (cog md m) (Some aa)) marks /\ vcross (vsub aa ba) n = 0 /\
    (is_polygon sh bs = true -> s = bs) /\ In (NameText (centroid sh s) env) marks /\ In (ContactArrow 1 P (0, 0)) marks /\
    In (BeforeArrow (centroid sh s) (0, 0)) marks /\ In (AfterArrow (centroid sh s) (Some (0, 0))) marks.
Proof. exact C101_resolved_environment_pf. Qed.
Print Assumptions C101_resolved_environment.

(** Two bodies that collide, and their picture. *)
Example C101_ex : exists ms' rep marks, flag_only ex_md /\
  resolve_collision (ex_sh false) ex_md 1 2 [(1%nat, ex_body (0, 0) (3, 1) (-1) (1 / 2)); (2%nat, ex_body (2, 2) (1, 0) 0 (1 / 3))] None 0 = (ms', Ok (Some rep)) /\ rep_normal rep = Some (1, 0) /\
  plot_collision (ex_sh false) (fun s => Ok [s]) (fun _ => Ok [(1%nat, (0, 0)); (2%nat, (2, 2))]) rep = Ok marks /\
  (forall p m, p = 1%nat \/ p = 2%nat -> aget Nat.eqb [(1%nat, ex_body (0, 0) (3, 1) (-1) (1 / 2)); (2%nat, ex_body (2, 2) (1, 0) 0 (1 / 3))] p = Some m -> aget Nat.eqb [(1%nat, (0, 0)); (2%nat, (2, 2))] p = Some (cog ex_md m)).
Proof.
  destruct (ex_resolve (0, 0) (3, 1) (-1) (2, 2) (1, 0) 0 (1 / 2) (1 / 3) None 0) as (ms' & rep & ? & ? & ? & ? & _ & H & _ & Hn & Hp & _); [cbn; lra|unfold midpoint, velocity_of_P_given_A; vunf; cbn; lra|].
  assert (D : exists marks, plot_collision (ex_sh false) (fun s => Ok [s]) (fun _ => Ok [(1%nat, (0, 0)); (2%nat, (2, 2))]) rep = Ok marks).
  { apply C101_defined. split; [eexists; reflexivity|]. split; [rewrite Hp; discriminate|].
    destruct (resolve_inv _ ex_md 1%nat 2%nat _ _ _ _ _ ex_flag_only ltac:(discriminate) H) as (ma & mb & va & wa & vb & wb & P & nrm & la & lb & fa & fb & _ & _ & _ & _ & _ & _ & _ & _ & _ & _ & _ & _ & J).
    cbv zeta in J. destruct J as (_ & aa & ab & -> & _). split; [cbn [length]; lia|]. intros p o [E|[E|[]]]; injection E as <- <-; eexists _, _; (split; [reflexivity|]; split; [reflexivity|]; intros; eexists; reflexivity). }
  destruct D as [marks D]. exists ms', rep, marks. split; [exact ex_flag_only|]. split; [exact H|]. split; [exact Hn|]. split; [exact D|].
  intros p m [-> | ->] E; injection E as <-; rewrite ex_cog; reflexivity.
Qed.

(** ** C102 *)

(** The direction of the impact is the angle from the heading of the vehicle to the line from
    its centre to the point of impact, up to whole turns. *)
Theorem C102_direction : forall c psi P, let d := get_impact_point_direction c psi P in
  P = vadd c (vscale (vdist P c) (cos (psi + d), sin (psi + d))).
Proof. exact C102_direction_pf. Qed.
Print Assumptions C102_direction.

(** It turns with the vehicle and does not depend on where the scene is. *)
Theorem C102_relative : forall c psi P q th, let turned v := vadd q (vsub (cos th * fst v, cos th * snd v) (sin th * snd v, - (sin th * fst v))) in
  same_angle (get_impact_point_direction (turned c) (psi + th) (turned P)) (get_impact_point_direction c psi P) \/ P = c.
Proof. exact C102_relative_pf. Qed.
Print Assumptions C102_relative.

(** It is in (-pi, pi] only for some headings. *)
Theorem C102_range : forall c psi P, - PI - psi < get_impact_point_direction c psi P <= PI - psi.
Proof. exact C102_range_pf. Qed.
Print Assumptions C102_range.

(** A vehicle with heading 3 that is hit on its left side: the angle is below -pi. *)
Theorem C102_normalised_refuted : exists c psi P, - PI < psi <= PI /\ P <> c /\ get_impact_point_direction c psi P < - PI.
Proof. exact C102_normalised_refuted_pf. Qed.
Print Assumptions C102_normalised_refuted.

(** Hit on the left side, a quarter turn from the heading. *)
Example C102_ex : get_impact_point_direction (1, 1) 0 (1, 3) = PI / 2.
Proof.
  unfold get_impact_point_direction. cbn [fst snd]. unfold atan2. destruct (Rlt_dec 0 (1 - 1)); [lra|]. destruct (Rlt_dec (1 - 1) 0); [lra|]. destruct (Rlt_dec 0 (3 - 1)); [|lra]. lra.
Qed.
