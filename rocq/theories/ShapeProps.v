(* Generated from tools/Shape.src by tools/gen_props.py. *)
(** Properties of the generated shapes. *)
From Coq Require Import Reals Lra Psatz List Bool ZArith Lia Arith.
From Verif Require Import Base R2 LaneModel LaneProofs SensorModel SensorSpec SensorProofs ShapeModel ShapeProofs.
Import ListNotations.
Open Scope R_scope.
From Verif Require Import ShapeMain.

(** ** C69 *)

(** A star: eight vertices clockwise around the centre, alternately at distance p and
    t times the square root of two. *)
Theorem C69_star : forall x y p t, 0 < p -> 0 < t -> let c := (x, y) in let pts := create_star_polygon x y p t in let v i := nth i pts c in
  length pts = 8%nat /\ forall i, (i < 8)%nat -> vdist c (v i) = (if Nat.even i then p else t * sqrt 2) /\ vcross (vsub (v i) c) (vsub (v ((i + 1) mod 8)%nat) c) < 0.
Proof. exact C69_star_pf. Qed.
Print Assumptions C69_star.

(** A random polygon: the vertices are, up to the fraction of the coordinates, at most twice
    the average radius from the centre and in counter-clockwise order, once around. *)
Theorem C69_random_partial : forall us u0 zs ctr avg irr spik n, (1 <= n)%Z -> 0 <= avg -> (forall i, 0 <= us i <= 1) ->
  irr < 1 \/ (exists i, (i < Z.to_nat n)%nat /\ 0 < us i) ->
  exists pts a r, create_random_starshaped_polygon us u0 zs ctr avg irr spik n = Ok pts /\ length pts = Z.to_nat n /\
    a 0%nat = 2 * PI * u0 /\ a (Z.to_nat n) = a 0%nat + 2 * PI /\ (forall i, (i < Z.to_nat n)%nat -> a i <= a (S i)) /\
    (forall i, (i < Z.to_nat n)%nat -> 0 <= r i <= 2 * avg /\ exists X Y, nth_error pts i = Some (X, Y) /\
      Rabs (IZR X - fst (at_dir ctr (a i) (r i))) < 1 /\ Rabs (IZR Y - snd (at_dir ctr (a i) (r i))) < 1) /\
    (irr <= 0 -> forall i, (i < Z.to_nat n)%nat -> a (S i) = a i + 2 * PI / IZR n) /\ (spik <= 0 -> forall i, (i < Z.to_nat n)%nat -> r i = avg) /\
    (0 <= irr -> 1 + irr < (IZR n - 1) * (1 - irr) -> forall i, (i < Z.to_nat n)%nat -> a (S i) < a i + PI).
Proof. exact C69_random_partial_pf. Qed.
Print Assumptions C69_random_partial.

(** Without vertices. *)
Theorem C69_no_vertices : forall us u0 zs ctr avg irr spik, create_random_starshaped_polygon us u0 zs ctr avg irr spik 0 = Err PyZeroDivisionError /\
  forall n, (n < 0)%Z -> create_random_starshaped_polygon us u0 zs ctr avg irr spik n = Ok [].
Proof. exact C69_no_vertices_pf. Qed.
Print Assumptions C69_no_vertices.

(** A polygon whose average radius is under half a unit is a point. *)
Theorem C69_small_refuted : forall us u0 zs avg irr spik n pts, 0 <= avg < 1 / 2 -> create_random_starshaped_polygon us u0 zs (0, 0) avg irr spik n = Ok pts -> forall v, In v pts -> v = (0%Z, 0%Z).
Proof. exact C69_small_refuted_pf. Qed.
Print Assumptions C69_small_refuted.

(** A vertex can be more than twice the average radius away from the centre. *)
Theorem C69_far_refuted : exists us u0 zs ctr avg irr spik n X Y, 0 < avg /\ (forall i, 0 <= us i <= 1) /\ create_random_starshaped_polygon us u0 zs ctr avg irr spik n = Ok [(X, Y)] /\ 6 * avg < vdist ctr (IZR X, IZR Y).
Proof. exact C69_far_refuted_pf. Qed.
Print Assumptions C69_far_refuted.

(** With irregularity 1 the vertices can all be the same, whatever the radius. *)
Theorem C69_irregular_refuted : forall R', (0 < R')%Z -> exists us, (forall i, 0 <= us i <= 1) /\ create_random_starshaped_polygon us 0 (fun _ => 0) (0, 0) (IZR R') 1 0 3 = Ok [(R', 0%Z); (R', 0%Z); (R', 0%Z)].
Proof. exact C69_irregular_refuted_pf. Qed.
Print Assumptions C69_irregular_refuted.

Example C69_ex : 0 < 2 /\ (1 <= 5)%Z /\ (forall i : nat, 0 <= (fun _ => 1 / 3) i <= 1) /\ 1 / 2 < 1 /\ 1 + 1 / 2 < (IZR 5 - 1) * (1 - 1 / 2) /\
  create_star_polygon 0 0 2 1 = [(0, 0 + -1 * 2); (0 + -1 * 1, 0 + -1 * 1); (0 + -1 * 2, 0); (0 + -1 * 1, 0 - -1 * 1); (0, 0 + 1 * 2); (0 + 1 * 1, 0 + 1 * 1); (0 + 1 * 2, 0); (0 + 1 * 1, 0 - 1 * 1)].
Proof. split; [lra|]. split; [lia|]. split; [intro; lra|]. split; [lra|]. split; [lra|]. reflexivity. Qed.
