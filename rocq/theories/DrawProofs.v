From Coq Require Import String Reals Lra Psatz List Bool ZArith Lia Arith.
From Verif Require Import Base R2 GeoModel GeoSpec GeoProofs LaneModel LaneProofs BodyModel BodySpec BodyProofs DynModel LightModel DrawModel DrawSpec DictLemmas.
Import ListNotations.
Import LaneModel.
Open Scope R_scope.

Lemma txy p psi o : o <> [] -> transform_xy (SE2_from_translation_angle p psi) o = Ok (map (in_world p psi) o).
Proof.
  intro N. unfold transform_xy. destruct o as [|a o]; [contradiction|]. apply (f_equal (@Ok (list vec))). apply map_ext. intros [x y]. unfold in_world, SE2_from_translation_angle. cbn [m00 m01 m02 m10 m11 m12 fst snd]. f_equal; ring.
Qed.

Lemma transform_world p psi o : transform (SE2_from_translation_angle p psi) o = map (in_world p psi) o.
Proof.
  unfold transform. apply map_ext. intros [x y]. unfold SE2_apply_T2, in_world, SE2_from_translation_angle. cbn [m00 m01 m02 m10 m11 m12 fst snd]. f_equal; ring.
Qed.

Lemma centre_is p psi : centre (SE2_from_translation_angle p psi) = Ok p.
Proof.
  unfold centre. rewrite txy by discriminate. cbn [bind map item nth_error]. unfold in_world. destruct p as [x y]. cbn [fst snd item nth_error]. unfold item. cbn [nth_error]. f_equal. f_equal; ring.
Qed.

Lemma world_compose p psi n a v : in_world p psi (in_world n a v) = in_world (in_world p psi n) (psi + a) v.
Proof. unfold in_world. cbn [fst snd]. rewrite cos_plus, sin_plus. f_equal; ring. Qed.

Lemma parts_compose p psi n a o : map (in_world p psi) (map (in_world n a) o) = part_in_world p psi n a o.
Proof. unfold part_in_world. rewrite map_map. apply map_ext. intro v. apply world_compose. Qed.

Lemma draw_body_ok p psi o c xy s pos r : o <> [] ->
  draw_body (SE2_from_translation_angle p psi) o (Fill c xy :: Label s pos :: r) = Ok (Fill c (map (in_world p psi) o) :: Label s p :: r).
Proof. intro N. unfold draw_body. rewrite centre_is. cbn [bind]. rewrite txy by exact N. reflexivity. Qed.

Lemma new_handles_ok p psi col name n m :
  new_handles (SE2_from_translation_angle p psi) col name n m = Ok (Fill col [] :: Label name p :: repeat (Fill "k" []) n ++ repeat (Fill "r" []) m).
Proof. unfold new_handles. rewrite centre_is. reflexivity. Qed.

(** The drawings of a sequence of frames, given the picture of a single one. *)
Lemma frames_last union quad models name wheels lights (pic : frame -> list artist * option (list patch_circle)) (good : frame -> Prop) f0 fs :
  (forall f, good f -> draw_frame union quad models name wheels lights None None f = Ok (pic f)) ->
  (forall f f', good f -> good f' -> draw_frame union quad models name wheels lights (Some (fst (pic f))) (snd (pic f)) f' = Ok (pic f')) ->
  (forall f, In f (f0 :: fs) -> good f) ->
  draw_animation union quad models name wheels lights f0 fs = Ok (pic (last fs f0)).
Proof.
  intros F N G. unfold draw_animation. rewrite (F f0) by (apply G; left; reflexivity). cbn [bind].
  assert (L : forall fs f, good f -> (forall f, In f fs -> good f) -> draw_frames union quad models name wheels lights (fst (pic f)) (snd (pic f)) fs = Ok (pic (last fs f))).
  { clear -N. induction fs as [|a fs IH]; intros f Gf G; cbn [draw_frames last]. { destruct (pic f). reflexivity. }
    rewrite (N f a) by (assumption || (apply G; left; reflexivity)). cbn [bind]. rewrite (IH a) by (intros; try (apply G; right; assumption); apply G; left; reflexivity).
    destruct fs as [|b fs]; [reflexivity|]. f_equal. f_equal. cbn [last]. clear. revert b. induction fs as [|c fs IH]; intro b; cbn [last]; [reflexivity|]. exact (IH c). }
  apply L; [apply G; left; reflexivity|]. intros f H. apply G. right. exact H.
Qed.

Lemma set_all_k c l os : length l = length os -> set_all (map (Fill c) l) os = Ok (map (Fill c) os).
Proof.
  revert os. induction l as [|x l IH]; intros [|o os] E; try discriminate; [reflexivity|]. cbn [map set_all set_xy bind]. rewrite IH by (cbn in E; lia). reflexivity.
Qed.
Lemma repeat_fill c n : repeat (Fill c []) n = map (Fill c) (repeat [] n).
Proof. induction n; [reflexivity|]. cbn. f_equal. assumption. Qed.

(** *** Extents *)
Lemma max_of (f : vec -> R) (l : list vec) : l <> [] -> exists v, In v l /\ forall w, In w l -> f w <= f v.
Proof.
  induction l as [|a l IH]; [contradiction|]. intros _. destruct l as [|b l].
  - exists a. split; [left; reflexivity|]. intros w [<-|[]]. lra.
  - destruct IH as (v & I & M); [discriminate|]. destruct (Rle_dec (f a) (f v)).
    + exists v. split; [right; exact I|]. intros w [<-|W]; [exact r|exact (M w W)].
    + exists a. split; [left; reflexivity|]. intros w [<-|W]; [lra|]. specialize (M w W). lra.
Qed.

Lemma union_box union r1 r2 x0 x1 y0 y1 : right_union union -> touching r1 r2 -> bounding_box (r1 ++ r2) x0 x1 y0 y1 -> bounding_box (union [r1; r2]) x0 x1 y0 y1.
Proof.
  intros U T (B & (vx0 & I1 & E1) & (vx1 & I2 & E2) & (vy0 & I3 & E3) & (vy1 & I4 & E4)). specialize (U r1 r2 T).
  assert (NE : union [r1; r2] <> []).
  { intro E. destruct (U 1 0 (fst vx0 - 1)) as [D _]. assert (X : 1 * fst vx0 + 0 * snd vx0 <= fst vx0 - 1) by (apply D; [rewrite E; intros v []|exact I1]). lra. }
  assert (sup : forall a b v, In v (r1 ++ r2) -> (forall w, In w (r1 ++ r2) -> a * fst w + b * snd w <= a * fst v + b * snd v) -> (forall w, In w (union [r1; r2]) -> a * fst w + b * snd w <= a * fst v + b * snd v) /\ exists w, In w (union [r1; r2]) /\ a * fst w + b * snd w = a * fst v + b * snd v).
  { intros a b v I M. assert (L : forall w, In w (union [r1; r2]) -> a * fst w + b * snd w <= a * fst v + b * snd v) by (apply U; exact M). split; [exact L|].
    destruct (max_of (fun w => a * fst w + b * snd w) (union [r1; r2]) NE) as (w & W & X). exists w. split; [exact W|]. apply Rle_antisym; [exact (L w W)|].
    destruct (U a b (a * fst w + b * snd w)) as [D _]. apply D; [exact X|exact I]. }
  destruct (sup (-1) 0 vx0 I1) as [L1 (w1 & W1 & Q1)]. { intros w W. destruct (B w W) as [[? ?] ?]. lra. }
  destruct (sup 1 0 vx1 I2) as [L2 (w2 & W2 & Q2)]. { intros w W. destruct (B w W) as [[? ?] ?]. lra. }
  destruct (sup 0 (-1) vy0 I3) as [L3 (w3 & W3 & Q3)]. { intros w W. destruct (B w W) as [? [? ?]]. lra. }
  destruct (sup 0 1 vy1 I4) as [L4 (w4 & W4 & Q4)]. { intros w W. destruct (B w W) as [? [? ?]]. lra. }
  split; [|split; [|split; [|split]]].
  - intros v V. specialize (L1 v V). specialize (L2 v V). specialize (L3 v V). specialize (L4 v V). split; lra.
  - exists w1. split; [exact W1|lra].
  - exists w2. split; [exact W2|lra].
  - exists w3. split; [exact W3|lra].
  - exists w4. split; [exact W4|lra].
Qed.

Definition four_lights (g : vehicle_geometry) (p : vec) (psi : R) (lc : lights_colors) (bl br fl fr : vec) : list patch_circle :=
  let light v c := mkCircle (in_world p psi v) (4 / 100 * width g) c in [light bl (back_left lc); light br (back_right lc); light fl (front_left lc); light fr (front_right lc)].
Lemma one_light p psi v : bind (transform_xy (SE2_from_translation_angle p psi) [v]) (fun l => item l 0) = Ok (in_world p psi v).
Proof. rewrite txy by discriminate. reflexivity. Qed.
Lemma plot_lights_ok g p psi lc bl br fl fr : lights_position g = Ok [("back_left", bl); ("back_right", br); ("front_left", fl); ("front_right", fr)]%string ->
  plot_lights (SE2_from_translation_angle p psi) (Some lc) g = Ok (four_lights g p psi lc bl br fl fr).
Proof.
  intro LP. unfold plot_lights. rewrite LP. unfold bind at 1. cbn [mapE]. unfold light_of. cbn [String.eqb Ascii.eqb Bool.eqb]. rewrite !txy by discriminate. reflexivity.
Qed.
Lemma move_lights_ok g p psi p' psi' lc lc' bl br fl fr :
  move_lights (SE2_from_translation_angle p' psi') lc' [("back_left", bl); ("back_right", br); ("front_left", fl); ("front_right", fr)]%string (four_lights g p psi lc bl br fl fr) = Ok (four_lights g p' psi' lc' bl br fl fr).
Proof.
  unfold four_lights. cbn [move_lights]. unfold light_of. cbn [String.eqb Ascii.eqb Bool.eqb]. rewrite !txy by discriminate. reflexivity.
Qed.

Lemma force_in F lo hi : lo <= F <= hi -> apply_force_limits F lo hi = F.
Proof. intro H. unfold apply_force_limits. destruct (negb _); [|reflexivity]. unfold Rmin, Rmax. destruct (Rle_dec F hi); destruct (Rle_dec lo _); lra. Qed.
Lemma force_above F lo hi : lo <= hi < F -> apply_force_limits F lo hi = hi.
Proof.
  intro H. unfold apply_force_limits, DynModel.ltb. destruct (Rlt_dec lo F); [|lra]. destruct (Rlt_dec F hi); [lra|]. cbn [andb negb]. unfold Rmin, Rmax. destruct (Rle_dec F hi); [lra|]. destruct (Rle_dec lo hi); lra.
Qed.

(** *** Painting *)
Lemma over_background inside p holes z c : z <= 1 ->
  fold_left (over inside p) (map (fun r => DPatch r None) holes) (Some (z, c)) = if existsb (fun r => inside r p) holes then Some (1, None) else Some (z, c).
Proof.
  intro Z. revert z c Z. induction holes as [|h holes IH]; intros z c Z; [reflexivity|]. cbn [map fold_left existsb over z_of option_map]. destruct (inside h p); cbn [orb].
  - destruct (Rlt_dec 1 z); [lra|]. rewrite IH by lra. destruct (existsb _ holes); reflexivity.
  - apply IH. exact Z.
Qed.
Lemma over_background_none inside p holes :
  fold_left (over inside p) (map (fun r => DPatch r None) holes) None = if existsb (fun r => inside r p) holes then Some (1, None) else None.
Proof.
  induction holes as [|h holes IH]; [reflexivity|]. cbn [map fold_left existsb over z_of option_map]. destruct (inside h p); cbn [orb]; [|exact IH]. rewrite over_background by lra. destruct (existsb _ holes); reflexivity.
Qed.
Lemma over_background_high inside p holes z c : 1 < z -> fold_left (over inside p) (map (fun r => DPatch r None) holes) (Some (z, c)) = Some (z, c).
Proof.
  intro Z. induction holes as [|h holes IH]; [reflexivity|]. cbn [map fold_left over z_of option_map]. destruct (inside h p); [|exact IH]. destruct (Rlt_dec 1 z); [exact IH|lra].
Qed.
Lemma existsb_map {A B} (f : A -> B) (g : B -> bool) l : existsb g (map f l) = existsb (fun x => g (f x)) l.
Proof. induction l as [|a l IH]; [reflexivity|]. cbn. rewrite IH. reflexivity. Qed.

(** The patch that is seen. *)
Lemma top inside p ds : forall b,
  match fold_left (over inside p) ds b with
  | None => b = None /\ forall r s, In (DPatch r s) ds -> inside r p = false
  | Some (z, c) => (b = Some (z, c) \/ exists r s, In (DPatch r s) ds /\ inside r p = true /\ z = z_of s /\ c = option_map st_color s) /\
      (forall z' c', b = Some (z', c') -> z' <= z) /\ (forall r s, In (DPatch r s) ds -> inside r p = true -> z_of s <= z)
  end.
Proof.
  induction ds as [|d ds IH]; intro b; cbn [fold_left].
  - destruct b as [[z c]|]; [|split; [reflexivity|intros r s []]]. split; [left; reflexivity|]. split; [intros z' c' [= <- <-]; lra|intros r s []].
  - specialize (IH (over inside p b d)). destruct (fold_left (over inside p) ds (over inside p b d)) as [[z c]|].
    + destruct IH as (A & B & C). destruct d as [q s|l s|ring s].
      1,2: cbn [over] in *; split; [destruct A as [A|(r & s' & I & X)]; [left; exact A|right; exists r, s'; split; [right; exact I|exact X]]|]; split; [exact B|]; intros r s' [D|D]; [discriminate|exact (C r s' D)].
      cbn [over] in *. destruct (inside ring p) eqn:IN.
      * destruct b as [[zb cb]|].
        -- destruct (Rlt_dec (z_of s) zb).
           ++ split; [destruct A as [A|(r' & s' & I & X)]; [left; exact A|right; exists r', s'; split; [right; exact I|exact X]]|]. split; [exact B|]. intros r' s' [D|D] N; [injection D as <- <-; specialize (B _ _ eq_refl); lra|exact (C r' s' D N)].
           ++ specialize (B _ _ eq_refl). split; [right; destruct A as [A|(r' & s' & I & X)]; [injection A as <- <-; exists ring, s; split; [left; reflexivity|auto]|exists r', s'; split; [right; exact I|exact X]]|].
              split; [intros z' c' [= <- <-]; lra|]. intros r' s' [D|D] N; [injection D as <- <-; exact B|exact (C r' s' D N)].
        -- specialize (B _ _ eq_refl). split; [right; destruct A as [A|(r' & s' & I & X)]; [injection A as <- <-; exists ring, s; split; [left; reflexivity|auto]|exists r', s'; split; [right; exact I|exact X]]|].
           split; [intros z' c' [=]|]. intros r' s' [D|D] N; [injection D as <- <-; exact B|exact (C r' s' D N)].
      * split; [destruct A as [A|(r' & s' & I & X)]; [left; exact A|right; exists r', s'; split; [right; exact I|exact X]]|]. split; [exact B|]. intros r' s' [D|D] N; [injection D as <- <-; congruence|exact (C r' s' D N)].
    + destruct IH as (A & B). destruct d as [q s|l s|ring s]; cbn [over] in *.
      1,2: split; [exact A|]; intros r s' [D|D]; [discriminate|exact (B r s' D)].
      destruct (inside ring p) eqn:IN; [destruct b as [[zb cb]|]; [destruct (Rlt_dec (z_of s) zb)|]; discriminate|]. split; [exact A|]. intros r s' [D|D]; [injection D as <- <-; exact IN|exact (B r s' D)].
Qed.

(** *** Trajectories *)
Definition drawable_b (e : extra) : bool :=
  match e with Trajectories l => negb (null l) && forallb (fun t => negb (null t) && forallb (fun s : vec * option R => match snd s with Some _ => true | None => false end) t) (map fst l) | _ => false end.
Lemma drawable_iff e : drawable_b e = true <-> drawable e.
Proof.
  unfold drawable. destruct e as [|l|]; cbn [drawable_b]; try (split; [discriminate|intros (l & E & _); discriminate]). rewrite andb_true_iff, forallb_forall. split.
  - intros [N F]. exists l. split; [reflexivity|]. split; [destruct l; [discriminate|discriminate]|]. intros t I. specialize (F t I). apply andb_true_iff in F. destruct F as [A B]. split; [destruct t; [discriminate|discriminate]|]. rewrite forallb_forall in B. intros s S. specialize (B s S). destruct (snd s); [discriminate|discriminate B].
  - intros (l' & [= <-] & N & F). split; [destruct l; [contradiction|reflexivity]|]. intros t I. destruct (F t I) as [A B]. apply andb_true_iff. split; [destruct t; [contradiction|reflexivity]|]. apply forallb_forall. intros s S. specialize (B s S). destruct (snd s); [reflexivity|contradiction].
Qed.
Lemma sampled_iff (t : traj) : sampled_traj t = if negb (null t) && forallb (fun s : vec * option R => match snd s with Some _ => true | None => false end) t then Ok (map fst t) else if forallb (fun s : vec * option R => match snd s with Some _ => true | None => false end) t then Err PyValueError else Err PyAttributeError.
Proof. unfold sampled_traj. destruct (forallb _ t); [|rewrite andb_false_r; reflexivity]. destruct t; reflexivity. Qed.
Lemma mapE_sampled (l : list traj) : (forallb (fun t => negb (null t) && forallb (fun s : vec * option R => match snd s with Some _ => true | None => false end) t) l = true -> mapE sampled_traj l = Ok (map (map fst) l)) /\
  (forallb (fun t => negb (null t) && forallb (fun s : vec * option R => match snd s with Some _ => true | None => false end) t) l = false -> exists e, mapE sampled_traj l = Err e).
Proof.
  induction l as [|t l [A B]]; cbn [forallb mapE map]; [split; [reflexivity|discriminate]|]. rewrite sampled_iff. destruct (negb (null t) && forallb _ t); cbn [andb].
  - split; intro F; [rewrite (A F); reflexivity|destruct (B F) as [e ->]; eexists; reflexivity].
  - split; [discriminate|]. intros _. destruct (forallb _ t); eexists; reflexivity.
Qed.
Lemma plot_traj_drawable models pname c h (l : list (traj * string)) : agetE String.eqb models pname = Ok c ->
  (drawable_b (Trajectories l) = true -> plot_trajectories models pname (map fst l) h (Some (map snd l)) = Ok (drawn (Trajectories l))) /\
  (drawable_b (Trajectories l) = false -> exists e, plot_trajectories models pname (map fst l) h (Some (map snd l)) = Err e).
Proof.
  intro M. unfold plot_trajectories. rewrite M. cbn [bind]. rewrite !map_length, Nat.eqb_refl. unfold plot_trajectories0. cbn [drawable_b drawn]. destruct (mapE_sampled (map fst l)) as [A B]. destruct (forallb (fun t : list (vec * option R) => negb (null t) && forallb (fun s : vec * option R => match snd s with Some _ => true | None => false end) t) (map fst l)).
  - rewrite (A eq_refl). cbn [bind]. rewrite andb_true_r. destruct l as [|x l]; cbn [null negb map]; split; try discriminate; [intros _; eexists; reflexivity|reflexivity].
  - destruct (B eq_refl) as [e ->]. rewrite andb_false_r. split; [discriminate|]. intros _. exists e. reflexivity.
Qed.
Lemma next_extra_ok models pname c a e : agetE String.eqb models pname = Ok c -> next_extra models pname (Some a) e = Some (if drawable_b e then drawn e else a).
Proof.
  intro M. destruct e as [|l|]; try reflexivity. destruct l as [|x l]; [reflexivity|]. destruct (plot_traj_drawable models pname c (Some a) (x :: l) M) as [A B]. cbn [next_extra].
  destruct (drawable_b (Trajectories (x :: l))); [rewrite (A eq_refl); reflexivity|destruct (B eq_refl) as [er ->]; reflexivity].
Qed.
Lemma first_extra_ok models pname c e : agetE String.eqb models pname = Ok c -> first_extra models pname e = if drawable_b e then Some (drawn e) else None.
Proof.
  intro M. destruct e as [|l|]; try reflexivity. destruct l as [|x l]; [reflexivity|]. destruct (plot_traj_drawable models pname c None (x :: l) M) as [A B]. cbn [first_extra].
  destruct (drawable_b (Trajectories (x :: l))); [rewrite (A eq_refl); reflexivity|destruct (B eq_refl) as [er ->]; reflexivity].
Qed.

(** *** The arena *)
Lemma draw_obstacles_ok obstacles : (forall sh col, In (sh, col) obstacles -> exists e i, sh = Polygon e i /\ e <> []) ->
  exists ds, draw_obstacles obstacles = Ok ds /\ (forall d, In d ds -> exists ring s, d = DPatch ring s) /\
    forall ring c z, In (DPatch ring (Some (mkStyle c z))) ds <-> exists e i, In (Polygon e i, c) obstacles /\ ring = removelast e /\ z = Some zENV_OBSTACLE.
Proof.
  induction obstacles as [|[sh col] r IH]; intro H.
  - exists []. split; [reflexivity|]. split; [intros d []|]. intros ring c z. split; [intros []|intros (e & i & [] & _)].
  - destruct (H sh col (or_introl eq_refl)) as (e & i & -> & N). destruct IH as (ds & D & P & Q); [intros; apply (H sh col0); right; assumption|]. cbn [draw_obstacles]. unfold add_shape. cbn [is_empty]. destruct e as [|v e]; [contradiction|]. cbn [null bind]. rewrite D. cbn [bind].
    eexists. split; [reflexivity|]. unfold poly_coordinates. cbn [plot_polys]. split.
    + intros d I. apply in_app_iff in I. destruct I as [[<-|I]|I]; [eauto| |exact (P d I)]. apply in_map_iff in I. destruct I as (x & <- & _). eauto.
    + intros ring c z. rewrite in_app_iff, Q. split.
      * intros [[E|I]|(e' & i' & I & X)].
        -- injection E as <- <- <-. exists (v :: e), i. split; [left; reflexivity|]. split; reflexivity.
        -- apply in_map_iff in I. destruct I as (x & E & _). discriminate.
        -- exists e', i'. split; [right; exact I|exact X].
      * intros (e' & i' & [E|I] & -> & ->); [injection E as <- <- <-; left; left; reflexivity|right; exists e', i'; auto].
Qed.
Lemma draw_goals_ok models missions :
  (forall p m, In (p, m) missions -> mi_static m = true -> (exists col, agetE String.eqb models p = Ok col) /\ exists e i, mi_geometry m 0 = Ok (Polygon e i) /\ e <> []) ->
  exists ds, draw_goals models missions = Ok ds /\ (forall d, In d ds -> exists ring s, d = DPatch ring s) /\
    forall ring c z, In (DPatch ring (Some (mkStyle c z))) ds <-> exists p m e i, In (p, m) missions /\ mi_static m = true /\ mi_geometry m 0 = Ok (Polygon e i) /\ agetE String.eqb models p = Ok c /\ ring = removelast e /\ z = Some zGOAL.
Proof.
  induction missions as [|[p m] r IH]; intro H.
  - exists []. split; [reflexivity|]. split; [intros d []|]. intros ring c z. split; [intros []|intros (p & m & e & i & [] & _)].
  - destruct IH as (ds & D & P & Q); [intros p0 m0 I0; apply (H p0 m0); right; assumption|]. cbn [draw_goals]. destruct (mi_static m) eqn:S.
    + destruct (H p m (or_introl eq_refl) S) as ((col & M) & e & i & G & N). rewrite M. cbn [bind]. rewrite G. cbn [bind]. unfold add_shape. cbn [is_empty]. destruct e as [|v e]; [contradiction|]. cbn [null bind]. rewrite D. cbn [bind].
      eexists. split; [reflexivity|]. unfold poly_coordinates. cbn [plot_polys]. split.
      * intros d I. apply in_app_iff in I. destruct I as [[<-|I]|I]; [eauto| |exact (P d I)]. apply in_map_iff in I. destruct I as (x & <- & _). eauto.
      * intros ring c z. rewrite in_app_iff, Q. split.
        -- intros [[E|I]|(p' & m' & e' & i' & I & X)].
           ++ injection E as <- <- <-. exists p, m, (v :: e), i. split; [left; reflexivity|]. auto 10.
           ++ apply in_map_iff in I. destruct I as (x & E & _). discriminate.
           ++ exists p', m', e', i'. split; [right; exact I|exact X].
        -- intros (p' & m' & e' & i' & [E|I] & S' & G' & M' & -> & ->).
           ++ injection E as <- <-. left. left. rewrite G in G'. injection G' as <- <-. rewrite M in M'. injection M' as <-. reflexivity.
           ++ right. exists p', m', e', i'. auto 10.
    + exists ds. split; [exact D|]. split; [exact P|]. intros ring c z. rewrite Q. split.
      * intros (p' & m' & e' & i' & I & X). exists p', m', e', i'. split; [right; exact I|exact X].
      * intros (p' & m' & e' & i' & [E|I] & X); [injection E as <- <-; destruct X as [X _]; congruence|]. exists p', m', e', i'. auto.
Qed.

(** *** Logs *)
Section LogProofs.
Variables T V : Type.
Notation pyplot := (pyplot T V).
Lemma axes_set (s : pyplot) f l cur f' : axes_of T V (mkPyplot T V (aset Nat.eqb (py_figures T V s) f l) cur) f' = if (f =? f')%nat then l else axes_of T V s f'.
Proof.
  unfold axes_of. cbn [py_figures]. rewrite dget_dset. destruct (f =? f')%nat; reflexivity.
Qed.
Lemma add_last_app c (l : list (axes T V)) a : add_last T V c (l ++ [a]) = l ++ [mkAxes T V (ax_rows T V a) (ax_index T V a) (ax_curves T V a ++ [c])].
Proof. unfold add_last. rewrite rev_app_distr. cbn [rev app]. rewrite rev_involutive. reflexivity. Qed.

Lemma plot_step (s : pyplot) f rows i c : py_current T V s = Some f ->
  let s' := plt_plot T V c (add_subplot T V f rows i s) in
  py_current T V s' = Some f /\ axes_of T V s' f = axes_of T V s f ++ [mkAxes T V rows i [c]] /\ forall f', f' <> f -> axes_of T V s' f' = axes_of T V s f'.
Proof.
  intro C. cbv zeta. set (s1 := add_subplot T V f rows i s). assert (C1 : py_current T V s1 = Some f) by exact C. assert (A1 : axes_of T V s1 f = axes_of T V s f ++ [mkAxes T V rows i []]) by (unfold s1, add_subplot; rewrite axes_set, Nat.eqb_refl; reflexivity).
  unfold plt_plot, gca. rewrite C1. assert (N : null (axes_of T V s1 f) = false) by (rewrite A1; destruct (axes_of T V s f); reflexivity). rewrite N. cbn [py_current]. split; [exact C1|]. split.
  - rewrite axes_set, Nat.eqb_refl, A1, add_last_app. reflexivity.
  - intros f' F. rewrite axes_set. destruct (Nat.eqb_spec f f'); [congruence|]. unfold s1, add_subplot. rewrite axes_set. destruct (Nat.eqb_spec f f'); [congruence|reflexivity].
Qed.
Lemma plot_step_other (s : pyplot) f g rows i c : py_current T V s = Some g -> g <> f ->
  let s' := plt_plot T V c (add_subplot T V f rows i s) in py_current T V s' = Some g /\ axes_of T V s' f = axes_of T V s f ++ [mkAxes T V rows i []].
Proof.
  intros C N. cbv zeta. set (s1 := add_subplot T V f rows i s). assert (C1 : py_current T V s1 = Some g) by exact C. assert (A1 : axes_of T V s1 f = axes_of T V s f ++ [mkAxes T V rows i []]) by (unfold s1, add_subplot; rewrite axes_set, Nat.eqb_refl; reflexivity).
  unfold plt_plot, gca. rewrite C1. destruct (null (axes_of T V s1 g)).
  - unfold add_subplot at 1 2. cbn [py_figures py_current]. split; [exact C1|]. set (s2 := add_subplot T V g 1 1 s1). change (aset Nat.eqb (py_figures T V s1) g (axes_of T V s1 g ++ [mkAxes T V 1 1 []])) with (py_figures T V s2).
    rewrite axes_set. destruct (Nat.eqb_spec g f); [contradiction|]. unfold s2, add_subplot. rewrite axes_set. destruct (Nat.eqb_spec g f); [contradiction|]. exact A1.
  - cbn [py_current]. split; [exact C1|]. rewrite axes_set. destruct (Nat.eqb_spec g f); [contradiction|]. exact A1.
Qed.
Lemma plot_fields_ok f rows step log fields : (forall field, In field fields -> exists pts, column T V log field = Ok pts) -> forall offset (s : pyplot), py_current T V s = Some f ->
  exists s' new, plot_fields T V f rows offset step log fields s = Ok s' /\ py_current T V s' = Some f /\ axes_of T V s' f = axes_of T V s f ++ new /\ (forall f', f' <> f -> axes_of T V s' f' = axes_of T V s f') /\ length new = length fields /\
    forall k a, nth_error new k = Some a -> ax_rows T V a = rows /\ ax_index T V a = S (offset + k) /\ exists field pts, nth_error fields k = Some field /\ column T V log field = Ok pts /\ ax_curves T V a = [mkCurve T V field pts step].
Proof.
  induction fields as [|field r IH]; intros H offset s C; cbn [plot_fields].
  - exists s, []. rewrite app_nil_r. split; [reflexivity|]. split; [exact C|]. split; [reflexivity|]. split; [reflexivity|]. split; [reflexivity|]. intros [|k] a; discriminate.
  - destruct (H field (or_introl eq_refl)) as [pts P]. rewrite P. cbn [bind]. destruct (plot_step s f rows (S offset) (mkCurve T V field pts step) C) as (C' & A & O).
    destruct (IH (fun x i => H x (or_intror i)) (S offset) _ C') as (s' & new & E & C2 & A2 & O2 & L & N). exists s', (mkAxes T V rows (S offset) [mkCurve T V field pts step] :: new). split; [exact E|]. split; [exact C2|]. split; [rewrite A2, A, <- app_assoc; reflexivity|]. split; [intros f' F; rewrite O2, O by exact F; reflexivity|]. split; [cbn; rewrite L; reflexivity|].
    intros [|k] a I; cbn [nth_error] in I.
    + injection I as <-. cbn [ax_rows ax_index ax_curves]. split; [reflexivity|]. split; [rewrite Nat.add_0_r; reflexivity|]. exists field, pts. auto.
    + destruct (N k a I) as (R1 & R2 & R3). split; [exact R1|]. split; [rewrite R2; lia|exact R3].
Qed.
Lemma plot_fields_other f g rows step log fields : g <> f -> (forall field, In field fields -> exists pts, column T V log field = Ok pts) -> forall offset (s : pyplot), py_current T V s = Some g ->
  exists s' new, plot_fields T V f rows offset step log fields s = Ok s' /\ py_current T V s' = Some g /\ axes_of T V s' f = axes_of T V s f ++ new /\ length new = length fields /\ forall a, In a new -> ax_curves T V a = [].
Proof.
  intro N. induction fields as [|field r IH]; intros H offset s C; cbn [plot_fields].
  - exists s, []. rewrite app_nil_r. split; [reflexivity|]. split; [exact C|]. split; [reflexivity|]. split; [reflexivity|]. intros a [].
  - destruct (H field (or_introl eq_refl)) as [pts P]. rewrite P. cbn [bind]. destruct (plot_step_other s f g rows (S offset) (mkCurve T V field pts step) C N) as (C' & A).
    destruct (IH (fun x i => H x (or_intror i)) (S offset) _ C') as (s' & new & E & C2 & A2 & L & M). exists s', (mkAxes T V rows (S offset) [] :: new). split; [exact E|]. split; [exact C2|]. split; [rewrite A2, A, <- app_assoc; reflexivity|]. split; [cbn; rewrite L; reflexivity|].
    intros a [<-|I]; [reflexivity|exact (M a I)].
Qed.
Lemma column_ok (log : record_log T V) fields field : has_fields T V log fields -> In field fields ->
  exists pts, column T V log field = Ok pts /\ Forall2 (fun e tv => fst tv = fst e /\ aget String.eqb (snd e) field = Some (snd tv)) log pts.
Proof.
  intros [_ H] I. unfold column. induction log as [|[t rec] log IH].
  - exists []. split; [reflexivity|constructor].
  - destruct IH as (pts & E & F); [intros e X; apply H; right; exact X|]. specialize (H (t, rec) (or_introl eq_refl)). cbn [snd] in H. rewrite <- H in I.
    assert (X : exists v, aget String.eqb rec field = Some v).
    { clear -I. induction rec as [|[k v] rec IHr]; [contradiction|]. change (aget String.eqb ((k, v) :: rec) field) with (if String.eqb k field then Some v else aget String.eqb rec field). destruct (String.eqb_spec k field) as [->|N]; [eauto|]. destruct I as [I|I]; [cbn in I; contradiction|]. exact (IHr I). }
    destruct X as [v X]. cbn [mapE fst snd]. rewrite X. cbn [bind]. rewrite E. cbn [bind]. exists ((t, v) :: pts). split; [reflexivity|]. constructor; [split; [reflexivity|exact X]|exact F].
Qed.
Lemma fields_ok (log : record_log T V) fs : has_fields T V log fs -> fields T V log = Ok fs.
Proof. intros [N H]. destruct log as [|e log]; [contradiction|]. unfold fields, item. cbn [nth_error bind]. rewrite (H e (or_introl eq_refl)). reflexivity. Qed.
Lemma player_log_ok (s : pyplot) f states commands sf cf : py_current T V s = Some f -> has_fields T V states sf -> has_fields T V commands cf ->
  exists s' new, plot_player_log T V (states, commands) (Some f) s = Ok s' /\ py_current T V s' = Some f /\ axes_of T V s' f = axes_of T V s f ++ new /\ (forall f', f' <> f -> axes_of T V s' f' = axes_of T V s f') /\ plots_of T V states commands sf cf new.
Proof.
  intros C S F. unfold plot_player_log. cbn [figure_or]. rewrite (fields_ok states sf S), (fields_ok commands cf F). cbn [bind].
  destruct (plot_fields_ok f (length sf + length cf) false states sf) with (offset := 0%nat) (s := s) as (s1 & n1 & E1 & C1 & A1 & O1 & L1 & N1); [intros field I; destruct (column_ok states sf field S I) as (p & E & _); eauto|exact C|]. rewrite E1. cbn [bind].
  destruct (plot_fields_ok f (length sf + length cf) true commands cf) with (offset := length sf) (s := s1) as (s2 & n2 & E2 & C2 & A2 & O2 & L2 & N2); [intros field I; destruct (column_ok commands cf field F I) as (p & E & _); eauto|exact C1|].
  exists s2, (n1 ++ n2). split; [exact E2|]. split; [exact C2|]. split; [rewrite A2, A1, app_assoc; reflexivity|]. split; [intros f' X; rewrite O2, O1 by exact X; reflexivity|].
  split; [rewrite app_length, L1, L2; reflexivity|]. intros k a I. destruct (Nat.lt_ge_cases k (length sf)) as [K|K].
  - rewrite nth_error_app1 in I by lia. destruct (N1 k a I) as (R1 & R2 & field & pts & R3 & R4 & R5). split; [exact R1|]. split; [exact R2|]. eexists. split; [exact R5|]. split; [|lia]. intros _. exists field. split; [exact R3|]. split; [|reflexivity]. split; [reflexivity|]. cbn [cu_points]. destruct (column_ok states sf field S (nth_error_In _ _ R3)) as (p & E & X). congruence.
  - rewrite nth_error_app2, L1 in I by lia. destruct (N2 _ a I) as (R1 & R2 & field & pts & R3 & R4 & R5). split; [exact R1|]. split; [rewrite R2; lia|]. eexists. split; [exact R5|]. split; [lia|]. intros _. exists field. split; [exact R3|]. split; [|reflexivity]. split; [reflexivity|]. cbn [cu_points]. destruct (column_ok commands cf field F (nth_error_In _ _ R3)) as (p & E & X). congruence.
Qed.
End LogProofs.
