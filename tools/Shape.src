(** Properties of the generated shapes. *)
From Coq Require Import Reals Lra Psatz List Bool ZArith Lia Arith.
From Verif Require Import Base R2 LaneModel LaneProofs SensorModel SensorSpec SensorProofs ShapeModel ShapeProofs.
Import ListNotations.
Open Scope R_scope.
(* BODY *)

(** ** C69 *)

(** A star: eight vertices clockwise around the centre, alternately at distance p and
    t times the square root of two. *)
Theorem C69_star : forall x y p t, 0 < p -> 0 < t -> let c := (x, y) in let pts := create_star_polygon x y p t in let v i := nth i pts c in
  length pts = 8%nat /\ forall i, (i < 8)%nat -> vdist c (v i) = (if Nat.even i then p else t * sqrt 2) /\ vcross (vsub (v i) c) (vsub (v ((i + 1) mod 8)%nat) c) < 0.
Proof.
  intros x y p t P T c pts v. split; [reflexivity|]. intros i I. assert (PT : 0 < p * t) by nra.
  assert (D1 : forall a b, a * a + b * b = p * p -> sqrt (a * a + b * b) = p) by (intros a b ->; apply sqrt_square; lra).
  assert (D2 : forall a b, a * a + b * b = t * t * 2 -> sqrt (a * a + b * b) = t * sqrt 2) by (intros a b ->; rewrite sqrt_mult by nra; rewrite sqrt_square by lra; reflexivity).
  do 8 (destruct i as [|i]; [unfold v, pts, create_star_polygon, c, vdist, vnorm, vdot, vsub, vcross; cbn [flat_map app nth Nat.even fst snd Nat.add Nat.modulo Nat.divmod Nat.sub]; (split; [first [apply D1; ring|apply D2; ring]|lra])|]). lia.
Qed.

(** A random polygon: the vertices are, up to the fraction of the coordinates, at most twice
    the average radius from the centre and in counter-clockwise order, once around. *)
Theorem C69_random_partial : forall us u0 zs ctr avg irr spik n, (1 <= n)%Z -> 0 <= avg -> (forall i, 0 <= us i <= 1) ->
  irr < 1 \/ (exists i, (i < Z.to_nat n)%nat /\ 0 < us i) ->
  exists pts a r, create_random_starshaped_polygon us u0 zs ctr avg irr spik n = Ok pts /\ length pts = Z.to_nat n /\
    a 0%nat = 2 * PI * u0 /\ a (Z.to_nat n) = a 0%nat + 2 * PI /\ (forall i, (i < Z.to_nat n)%nat -> a i <= a (S i)) /\
    (forall i, (i < Z.to_nat n)%nat -> 0 <= r i <= 2 * avg /\ exists X Y, nth_error pts i = Some (X, Y) /\
      Rabs (IZR X - fst (at_dir ctr (a i) (r i))) < 1 /\ Rabs (IZR Y - snd (at_dir ctr (a i) (r i))) < 1) /\
    (irr <= 0 -> forall i, (i < Z.to_nat n)%nat -> a (S i) = a i + 2 * PI / IZR n) /\ (spik <= 0 -> forall i, (i < Z.to_nat n)%nat -> r i = avg) /\
    (0 <= irr -> 1 + irr < (IZR n - 1) * (1 - irr) -> forall i, (i < Z.to_nat n)%nat -> a (S i) < a i + PI).
Proof.
  intros us u0 zs ctr avg irr spik n N A U NZ. pose proof PI_RGT_0 as PP. assert (NR : 1 <= IZR n) by (apply IZR_le in N; exact N). set (ir := clip irr 0 1). assert (IR : 0 <= ir <= 1) by (apply clip_range; lra). set (h := 2 * PI / IZR n). assert (HP : 0 < h) by (apply Rdiv_lt_0_compat; lra).
  set (steps := raw_steps us irr n). assert (SE : steps = map (fun i => h * (1 - ir) + 2 * h * ir * us i) (List.seq 0 (Z.to_nat n))). { unfold steps, raw_steps. apply map_ext. intro i. fold ir h. unfold h. field. lra. }
  assert (LS : length steps = Z.to_nat n) by (rewrite SE, map_length, seq_length; reflexivity). assert (IN : INR (Z.to_nat n) = IZR n) by (rewrite INR_IZR_INZ, Z2Nat.id by lia; reflexivity).
  assert (RG : forall x, In x steps -> h * (1 - ir) <= x <= h * (1 + ir)). { intros x I. rewrite SE in I. apply in_map_iff in I as (i & <- & _). specialize (U i). assert (0 <= h * ir) by nra. assert (0 <= h * ir * us i) by nra. assert (0 <= h * ir * (1 - us i)) by nra. split; lra. }
  assert (POS : 0 < rsum steps).
  { destruct NZ as [L|(i & I & UI)].
    - assert (IL : ir < 1) by (unfold ir, clip; destruct (Rle_dec irr 0); [rewrite Rmax_right by lra|rewrite Rmax_left by lra]; [rewrite Rmin_left by lra|rewrite Rmin_left by lra]; lra). pose proof (rsum_ge steps _ (fun x I => proj1 (RG x I))) as G. rewrite LS, IN in G. assert (0 < h * (1 - ir)) by nra. nra.
    - assert (I' : In (h * (1 - ir) + 2 * h * ir * us i) steps) by (rewrite SE; apply in_map_iff; exists i; split; [reflexivity|apply in_seq; lia]). pose proof (rsum_term steps _ _ (fun x I => proj1 (RG x I)) I') as G. rewrite LS, IN in G. assert (0 <= h * (1 - ir)) by nra. assert (0 <= (IZR n - 1) * (h * (1 - ir))) by nra. assert (0 <= h * ir * us i) by (assert (0 <= h * ir) by nra; nra).
      destruct (Req_dec ir 1) as [E1|E1]; [rewrite E1 in *; nra|assert (0 < h * (1 - ir)) by nra; lra]. }
  set (k := rsum steps / (2 * PI)). assert (KP : 0 < k) by (apply Rdiv_lt_0_compat; lra). set (ns := map (fun s => s / k) steps). assert (LN : length ns = Z.to_nat n) by (unfold ns; rewrite map_length; exact LS).
  assert (SN : rsum ns = 2 * PI) by (unfold ns; rewrite rsum_div by lra; unfold k; field; lra).
  set (sp := clip spik 0 1 * avg). set (a := fun i => 2 * PI * u0 + psum ns i). set (r := fun i => clip (avg + sp * zs i) 0 (2 * avg)).
  assert (STEP : forall i, (i < Z.to_nat n)%nat -> exists s, In s steps /\ a (S i) = a i + s / k). { intros i I. destruct (psum_step ns i) as (x & X & E); [lia|]. unfold ns in X. apply in_map_iff in X as (s & <- & X). exists s. split; [exact X|]. unfold a. rewrite E. ring. }
  exists (points_loop zs ctr avg sp 0 (0 + (2 * PI - 0) * u0) ns), a, r. split.
  { unfold create_random_starshaped_polygon. destruct (Z.eqb_spec n 0); [lia|]. fold sp. fold steps. fold k. destruct (Req_EM_T k 0); [lra|]. reflexivity. }
  split; [rewrite loop_length; exact LN|]. split; [unfold a, psum; cbn [firstn]; unfold rsum; cbn; ring|]. split; [unfold a at 1; rewrite <- LN, psum_all, SN; unfold a, psum; cbn [firstn]; unfold rsum; cbn; ring|].
  split. { intros i I. destruct (STEP i I) as (s & S & ->). destruct (RG s S) as [R1 _]. assert (0 <= s) by nra. assert (0 <= s / k) by (apply Rmult_le_pos; [assumption|left; apply Rinv_0_lt_compat; exact KP]). lra. }
  split. { intros i I. split; [apply clip_range; lra|]. rewrite (loop_nth zs ctr avg sp ns) by lia. cbv zeta. replace (0 + (2 * PI - 0) * u0 + psum ns i) with (a i) by (unfold a; ring). cbn [Nat.add]. fold (r i). do 2 eexists. split; [reflexivity|]. split; apply py_int_close. }
  split. { intros I0 i I. destruct (STEP i I) as (s & S & ->). assert (E0 : ir = 0) by (unfold ir; apply clip_low; lra). rewrite E0 in RG. assert (SH : forall x, In x steps -> x = h) by (intros x X; specialize (RG x X); lra). rewrite (SH s S).
    assert (RS : rsum steps = IZR n * h). { rewrite <- IN, <- LS. clear -SH. revert SH. generalize steps as l. induction l as [|x l IH]; intro SH; [unfold rsum; cbn; ring|]. rewrite rsum_cons, (SH x (or_introl eq_refl)). cbn [length]. rewrite S_INR, (IH (fun y Y => SH y (or_intror Y))). ring. }
    unfold k. rewrite RS. unfold h. field. lra. }
  split. { intros S0 i I. unfold r, sp. rewrite (clip_low spik 0 1) by lra. replace (avg + 0 * avg * zs i) with avg by ring. apply clip_in. lra. }
  intros C0 C i I. destruct (STEP i I) as (s & S & ->). assert (KS : s / k < PI); [|lra]. pose proof (rsum_term steps s _ (fun x X => proj1 (RG x X)) S) as G. rewrite LS, IN in G. destruct (RG s S) as [R1 R2].
  assert (I1 : irr < 1). { apply Rnot_le_lt. intro G1. assert (0 <= (IZR n - 1) * (irr - 1)) by (apply Rmult_le_pos; lra). lra. } assert (IRE : 1 + ir < (IZR n - 1) * (1 - ir)). { unfold ir. rewrite clip_in by lra. exact C. }
  apply Rmult_lt_reg_r with k; [exact KP|]. replace (s / k * k) with s by (field; lra). unfold k. replace (PI * (rsum steps / (2 * PI))) with (rsum steps / 2) by (field; lra). assert (s < rsum steps - s); [|lra]. assert (h * (1 + ir) < h * ((IZR n - 1) * (1 - ir))) by nra. nra.
Qed.

(** Without vertices. *)
Theorem C69_no_vertices : forall us u0 zs ctr avg irr spik, create_random_starshaped_polygon us u0 zs ctr avg irr spik 0 = Err PyZeroDivisionError /\
  forall n, (n < 0)%Z -> create_random_starshaped_polygon us u0 zs ctr avg irr spik n = Ok [].
Proof.
  intros. split; [reflexivity|]. intros n N. unfold create_random_starshaped_polygon. destruct (Z.eqb_spec n 0); [lia|]. assert (E : raw_steps us irr n = []) by (unfold raw_steps; replace (Z.to_nat n) with 0%nat by lia; reflexivity). rewrite E. cbn [map points_loop]. destruct (Req_EM_T _ 0); [|reflexivity]. destruct (Z.leb_spec 2 n); [lia|reflexivity].
Qed.

(** A polygon whose average radius is under half a unit is a point. *)
Theorem C69_small_refuted : forall us u0 zs avg irr spik n pts, 0 <= avg < 1 / 2 -> create_random_starshaped_polygon us u0 zs (0, 0) avg irr spik n = Ok pts -> forall v, In v pts -> v = (0%Z, 0%Z).
Proof.
  intros us u0 zs avg irr spik n pts A E v I. assert (L : forall sp i0 a0 steps, In v (points_loop zs (0, 0) avg sp i0 a0 steps) -> v = (0%Z, 0%Z)).
  { intros sp i0 a0 steps. revert i0 a0. induction steps as [|s rest IH]; intros i0 a0 J; [contradiction|]. cbn [points_loop] in J. destruct J as [<-|J]; [|exact (IH _ _ J)]. cbn [fst snd]. set (r := clip _ 0 (2 * avg)). assert (R : 0 <= r <= 2 * avg) by (apply clip_range; lra). pose proof (COS_bound a0). pose proof (SIN_bound a0). rewrite !py_int_small; [reflexivity|split; nra|split; nra]. }
  unfold create_random_starshaped_polygon in E. destruct (n =? 0)%Z; [discriminate|]. destruct (Req_EM_T _ 0); [destruct (2 <=? n)%Z; [discriminate|]|]; injection E as <-; exact (L _ _ _ _ I).
Qed.

(** A vertex can be more than twice the average radius away from the centre. *)
Theorem C69_far_refuted : exists us u0 zs ctr avg irr spik n X Y, 0 < avg /\ (forall i, 0 <= us i <= 1) /\ create_random_starshaped_polygon us u0 zs ctr avg irr spik n = Ok [(X, Y)] /\ 6 * avg < vdist ctr (IZR X, IZR Y).
Proof.
  pose proof PI_RGT_0 as PP. exists (fun _ => 1 / 2), 0, (fun _ => 0), (- (1 / 2), - (1 / 2)), (1 / 10), 0, 0, 1%Z, 0%Z, 0%Z. split; [lra|]. split; [intro; lra|]. split.
  - unfold create_random_starshaped_polygon, raw_steps. cbn [Z.eqb]. change (Z.to_nat 1) with 1%nat. cbn [List.seq map]. rewrite (clip_low 0 0 1) by lra. unfold rsum. cbn [fold_left]. destruct (Req_EM_T _ 0) as [E|E]; (try change (2 <=? 1)%Z with false); cbv iota; cbn [map points_loop fst snd]; rewrite clip_in by lra; replace (0 + (2 * PI - 0) * 0) with 0 by ring; rewrite cos_0, sin_0; rewrite !py_int_small by lra; reflexivity.
  - unfold vdist, vnorm, vdot, vsub. cbn [fst snd]. apply Rsqr_incrst_0; [|lra|apply sqrt_pos]. rewrite Rsqr_sqrt by nra. unfold Rsqr. lra.
Qed.

(** With irregularity 1 the vertices can all be the same, whatever the radius. *)
Theorem C69_irregular_refuted : forall R', (0 < R')%Z -> exists us, (forall i, 0 <= us i <= 1) /\ create_random_starshaped_polygon us 0 (fun _ => 0) (0, 0) (IZR R') 1 0 3 = Ok [(R', 0%Z); (R', 0%Z); (R', 0%Z)].
Proof.
  intros R' P. pose proof PI_RGT_0 as PP. apply IZR_lt in P. exists (fun i => if (i =? 0)%nat then 1 else 0). split; [intro i; destruct (i =? 0)%nat; lra|].
  unfold create_random_starshaped_polygon, raw_steps. cbn [Z.eqb]. change (Z.to_nat 3) with 3%nat. cbn [List.seq map Nat.eqb]. rewrite (clip_in 1 0 1), (clip_low 0 0 1) by lra. unfold rsum. cbn [fold_left]. set (k := _ / (2 * PI)). assert (K : k = 2 / 3) by (unfold k; field; lra). rewrite K. destruct (Req_EM_T (2 / 3) 0) as [E|_]; [lra|].
  cbn [map points_loop fst snd]. assert (C : forall z, clip (IZR R' + 0 * IZR R' * z) 0 (2 * IZR R') = IZR R') by (intro z; replace (IZR R' + 0 * IZR R' * z) with (IZR R') by ring; apply clip_in; lra). rewrite C.
  replace (0 + (2 * PI - 0) * 0) with 0 by ring. match goal with |- context [cos (0 + ?s)] => replace s with (2 * PI) by field end. match goal with |- context [cos (0 + 2 * PI + ?s)] => replace s with 0 by field end. rewrite !Rplus_0_l, !Rplus_0_r. rewrite cos_0, sin_0, cos_2PI, sin_2PI. rewrite Rmult_1_r, Rmult_0_r, py_int_whole. rewrite (py_int_small 0) by lra. reflexivity.
Qed.

Example C69_ex : 0 < 2 /\ (1 <= 5)%Z /\ (forall i : nat, 0 <= (fun _ => 1 / 3) i <= 1) /\ 1 / 2 < 1 /\ 1 + 1 / 2 < (IZR 5 - 1) * (1 - 1 / 2) /\
  create_star_polygon 0 0 2 1 = [(0, 0 + -1 * 2); (0 + -1 * 1, 0 + -1 * 1); (0 + -1 * 2, 0); (0 + -1 * 1, 0 - -1 * 1); (0, 0 + 1 * 2); (0 + 1 * 1, 0 + 1 * 1); (0 + 1 * 2, 0); (0 + 1 * 1, 0 - 1 * 1)].
Proof. split; [lra|]. split; [lia|]. split; [intro; lra|]. split; [lra|]. split; [lra|]. reflexivity. Qed.
