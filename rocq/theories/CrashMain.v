(* Generated from tools/Crash.src by tools/gen_props.py. *)
(** Properties of the pictures of collisions. *)
From Coq Require Import Reals Lra Psatz List Bool Arith Lia.
From Verif Require Import Base R2 GeoModel GeoSpec GeoProofs DictLemmas AssocLemmas CollModel CollSpec CollProofs CollExamples CrashModel CrashSpec.
Import ListNotations.
Open Scope R_scope.

Lemma area_marks_spec Sh Loc (sh : shapely Sh) exterior (l : list (Loc * Sh)) ms : area_marks sh exterior l = Ok ms ->
  forall m, In m ms <-> (exists k s path, In (k, s) l /\ exterior s = Ok path /\ m = Area path) \/ (exists k s, In (k, s) l /\ m = AreaName (centroid sh s) k).
Proof.
  revert ms. induction l as [|[k s] l IH]; cbn [area_marks]; intros ms H m.
  - injection H as <-. split; [intros []|]. intros [(k & s & path & [] & _)|(k & s & [] & _)].
  - destruct (exterior s) as [path|] eqn:E; [|discriminate]. destruct (area_marks sh exterior l) as [l'|] eqn:E2; [|discriminate]. injection H as <-. specialize (IH _ eq_refl m). cbn [In]. split.
    + intros [<-|[<-|H]]; [left; exists k, s, path; auto|right; exists k, s; auto|]. apply IH in H as [(k' & s' & path' & H & H')|(k' & s' & H & H')]; [left; exists k', s', path'; auto|right; exists k', s'; auto].
    + intros [(k' & s' & path' & [H|H] & He & Hm)|(k' & s' & [H|H] & Hm)].
      * injection H as <- <-. left. congruence.
      * right. right. apply IH. left. exists k', s', path'. auto.
      * injection H as <- <-. right. left. congruence.
      * right. right. apply IH. right. exists k', s'. auto.
Qed.

Lemma player_marks_spec Sh Loc (sh : shapely Sh) exterior entries P i p (o : option (player_report Loc)) ms : player_marks sh exterior entries P i p o = Ok ms ->
  exists pr c, o = Some pr /\ centred sh entries p pr c /\ (i < 8)%nat /\ forall m, In m ms <-> shown sh exterior P i p pr c m.
Proof.
  unfold player_marks, n_colors. destruct (8 <=? i)%nat eqn:E8; [discriminate|]. apply Nat.leb_gt in E8. destruct o as [pr|]; [|discriminate].
  destruct (exterior (pr_footprint pr)) as [path|] eqn:Ee; [|discriminate].
  set (c := match aget Nat.eqb entries p with Some xy => xy | None => centroid sh (pr_footprint pr) end). cbv zeta.
  destruct (area_marks sh exterior (pr_locations pr)) as [areas|] eqn:Ea; [|discriminate]. intro H. injection H as H.
  exists pr, c. split; [reflexivity|]. split. { unfold centred, c. destruct (aget Nat.eqb entries p); auto. }
  split; [exact E8|]. intro m. pose proof (area_marks_spec _ _ _ _ _ _ Ea m) as A. rewrite <- H. cbn [In]. rewrite A. clear H A Ea.
  destruct (pr_velocity pr) as [v w] eqn:Ev. cbn [fst snd].
  assert (Q : vscale (3 / 10) (velocity_of_P_given_A (vscale (1 / (3 / 10)) (vscale (3 / 10) v)) w (vsub P c)) = (3 / 10 * fst (contact v w c P), 3 / 10 * snd (contact v w c P))).
  { unfold velocity_of_P_given_A, contact. vunf. f_equal; field. }
  rewrite Q. replace (4 * (1 / 10)) with (4 / 10) by field. replace (2 * (1 / 10)) with (2 / 10) by field. split.
  - intros [<-|[<-|[<-|[<-|[<-|[<-|[<-|[<-|[(k & s & pa & H1 & H2 & ->)|(k & s & H1 & ->)]]]]]]]]].
    + constructor. exact Ee.
    + constructor.
    + exact (sh_before _ _ _ _ _ _ _ v w Ev).
    + destruct (pr_velocity_after pr) as [[v' w']|] eqn:E; cbn [option_map]; [exact (sh_after _ _ _ _ _ _ _ v' w' E)|exact (sh_after_nan _ _ _ _ _ _ _ E)].
    + constructor.
    + exact (sh_spin _ _ _ _ _ _ _ v w Ev).
    + destruct (pr_velocity_after pr) as [[v' w']|] eqn:E; cbn [option_map]; [exact (sh_spin_after _ _ _ _ _ _ _ v' w' E)|exact (sh_spin_nan _ _ _ _ _ _ _ E)].
    + exact (sh_contact _ _ _ _ _ _ _ v w _ Ev eq_refl).
    + exact (sh_area _ _ _ _ _ _ _ k s pa H1 H2).
    + exact (sh_area_name _ _ _ _ _ _ _ k s H1).
  - intros [pa He| |v' w' He|v' w' He|He| |v' w' He|v' w' He|He|v' w' d He Hd|k s pa H1 H2|k s H1].
    + left. congruence.
    + right. left. reflexivity.
    + do 2 right. left. rewrite Ev in He. injection He as <- <-. reflexivity.
    + do 3 right. left. rewrite He. reflexivity.
    + do 3 right. left. rewrite He. reflexivity.
    + do 4 right. left. reflexivity.
    + do 5 right. left. rewrite Ev in He. injection He as <- <-. reflexivity.
    + do 6 right. left. rewrite He. reflexivity.
    + do 6 right. left. rewrite He. reflexivity.
    + do 7 right. left. rewrite Ev in He. injection He as <- <-. subst d. reflexivity.
    + do 8 right. left. exists k, s, pa. auto.
    + do 8 right. right. exists k, s. auto.
Qed.

Lemma players_marks_spec Sh Loc (sh : shapely Sh) exterior entries P (l : list (nat * option (player_report Loc))) : forall i ms, players_marks sh exterior entries P i l = Ok ms ->
  (forall j p o, nth_error l j = Some (p, o) -> exists pr c, o = Some pr /\ centred sh entries p pr c /\ (i + j < 8)%nat) /\
  forall m, In m ms <-> exists j p pr c, nth_error l j = Some (p, Some pr) /\ centred sh entries p pr c /\ shown sh exterior P (i + j) p pr c m.
Proof.
  induction l as [|[p o] l IH]; cbn [players_marks]; intros i ms H.
  - injection H as <-. split; [intros [|j] p o Hn; discriminate|]. intro m. split; [intros []|intros ([|j] & p & pr & c & Hn & _); discriminate].
  - destruct (player_marks sh exterior entries P i p o) as [l1|] eqn:E1; [|discriminate]. destruct (players_marks sh exterior entries P (S i) l) as [l2|] eqn:E2; [|discriminate]. injection H as <-.
    destruct (player_marks_spec _ _ _ _ _ _ _ _ _ _ E1) as (pr & c & -> & Hc & Hi & Hm). destruct (IH _ _ E2) as [I1 I2]. split.
    + intros [|j] p' o' Hn; cbn [nth_error] in Hn.
      * injection Hn as <- <-. exists pr, c. rewrite Nat.add_0_r. auto.
      * destruct (I1 _ _ _ Hn) as (pr' & c' & A & B & C). exists pr', c'. repeat split; auto. lia.
    + intro m. rewrite in_app_iff, Hm, I2. split.
      * intros [Hs|(j & p' & pr' & c' & A & B & C)]; [exists 0%nat, p, pr, c; rewrite Nat.add_0_r; auto|exists (S j), p', pr', c'; rewrite Nat.add_succ_r; auto].
      * intros ([|j] & p' & pr' & c' & A & B & C); cbn [nth_error] in A.
        -- injection A as <- <-. left. rewrite Nat.add_0_r in C. destruct Hc as [Hc|[Hc1 Hc2]], B as [B|[B1 B2]]; congruence.
        -- right. exists j, p', pr', c'. rewrite Nat.add_succ_r in C. auto.
Qed.

(** The picture has the point of impact, the normal, and of every player of the report just
    what [shown] says, at the place where the log has it at the time of the collision. *)
Lemma C101_picture_pf : forall Sh Loc (sh : shapely Sh) exterior at_interp (r : report Loc) marks,
  plot_collision sh exterior at_interp r = Ok marks -> exists P entries, rep_point r = Some P /\ at_interp (rep_time r) = Ok entries /\
  forall m, In m marks <-> m = Dot P \/ m = NormalArrow P (option_map (fun n => (2 / 10 * fst n, 2 / 10 * snd n)) (rep_normal r)) \/
    exists i p pr c, nth_error (rep_players r) i = Some (p, Some pr) /\ centred sh entries p pr c /\ shown sh exterior P i p pr c m.
Proof.
  intros Sh Loc sh exterior at_interp r marks H. unfold plot_collision in H. destruct (at_interp (rep_time r)) as [entries|]; [|discriminate]. destruct (rep_point r) as [P|]; [|discriminate].
  destruct (players_marks sh exterior entries P 0 (rep_players r)) as [l|] eqn:E; [|discriminate]. injection H as <-. exists P, entries. split; [reflexivity|]. split; [reflexivity|]. intro m.
  destruct (players_marks_spec _ _ _ _ _ _ _ _ _ E) as [_ I]. cbn [In]. rewrite I. cbn [Nat.add]. split; [intros [H|[H|H]]; auto|intros [H|[H|H]]; auto].
Qed.

Lemma area_marks_ok Sh Loc (sh : shapely Sh) exterior (l : list (Loc * Sh)) : (exists ms, area_marks sh exterior l = Ok ms) <-> forall k s, In (k, s) l -> exists path, exterior s = Ok path.
Proof.
  induction l as [|[k s] l IH]; cbn [area_marks].
  - split; [intros _ ? ? []|exists []; reflexivity].
  - split.
    + intros [ms H] k' s' [E|Hi].
      * injection E as <- <-. destruct (exterior s); [eexists; reflexivity|discriminate].
      * destruct (exterior s); [|discriminate]. destruct (area_marks sh exterior l) eqn:E2; [|discriminate]. apply (proj1 IH (ex_intro _ _ eq_refl) _ _ Hi).
    + intro H. destruct (H k s (or_introl eq_refl)) as [path ->]. destruct (proj2 IH (fun k' s' Hi => H k' s' (or_intror Hi))) as [ms ->]. eexists. reflexivity.
Qed.

Lemma players_marks_ok Sh Loc (sh : shapely Sh) exterior entries P (l : list (nat * option (player_report Loc))) : forall i,
  (exists ms, players_marks sh exterior entries P i l = Ok ms) <->
  (l = [] \/ i + length l <= 8)%nat /\ (forall p o, In (p, o) l -> exists pr path, o = Some pr /\ exterior (pr_footprint pr) = Ok path /\ forall k s, In (k, s) (pr_locations pr) -> exists path, exterior s = Ok path).
Proof.
  induction l as [|[p o] l IH]; cbn [players_marks]; intro i.
  - split; [intros _; split; [left; reflexivity|intros ? ? []]|intros _; exists []; reflexivity].
  - split.
    + intros [ms H]. destruct (player_marks sh exterior entries P i p o) as [l1|] eqn:E1; [|discriminate]. destruct (players_marks sh exterior entries P (S i) l) as [l2|] eqn:E2; [|discriminate].
      destruct (proj1 (IH (S i)) (ex_intro _ _ E2)) as [I1 I2]. unfold player_marks, n_colors in E1. destruct (8 <=? i)%nat eqn:E8; [discriminate|]. apply Nat.leb_gt in E8. split.
      * right. cbn [length]. destruct I1 as [->|I1]; [cbn [length]|]; lia.
      * intros p' o' [E|Hi]; [|exact (I2 _ _ Hi)]. injection E as <- <-. destruct o as [pr|]; [|discriminate]. destruct (exterior (pr_footprint pr)) as [path|] eqn:Ee; [|discriminate]. exists pr, path. split; [reflexivity|]. split; [exact Ee|].
        cbv zeta in E1. destruct (area_marks sh exterior (pr_locations pr)) as [areas|] eqn:Ea; [|discriminate]. apply (proj1 (area_marks_ok _ _ sh exterior _) (ex_intro _ _ Ea)).
    + intros [[Hl|Hl] Hp]; [discriminate|]. cbn [length] in Hl. destruct (Hp p o (or_introl eq_refl)) as (pr & path & -> & He & Hk).
      destruct (proj2 (area_marks_ok _ _ sh exterior _) Hk) as [areas Ha]. unfold player_marks, n_colors. replace (8 <=? i)%nat with false by (symmetry; apply Nat.leb_gt; lia). rewrite He. cbv zeta. rewrite Ha.
      destruct (proj2 (IH (S i))) as [ms ->]; [|eexists; reflexivity]. split; [right; lia|]. intros p' o' Hi. exact (Hp p' o' (or_intror Hi)).
Qed.

(** There is a picture just when the log reaches back to the time of the collision, the report
    has a point of impact and a part for each player, of which there are at most eight, and the
    shapes are polygons. *)
Lemma C101_defined_pf : forall Sh Loc (sh : shapely Sh) exterior at_interp (r : report Loc),
  (exists marks, plot_collision sh exterior at_interp r = Ok marks) <->
  (exists entries, at_interp (rep_time r) = Ok entries) /\ rep_point r <> None /\ (length (rep_players r) <= 8)%nat /\
  forall p o, In (p, o) (rep_players r) -> exists pr path, o = Some pr /\ exterior (pr_footprint pr) = Ok path /\ forall k s, In (k, s) (pr_locations pr) -> exists path, exterior s = Ok path.
Proof.
  intros Sh Loc sh exterior at_interp r. unfold plot_collision. split.
  - intros [marks H]. destruct (at_interp (rep_time r)) as [entries|]; [|discriminate]. destruct (rep_point r) as [P|]; [|discriminate].
    destruct (players_marks sh exterior entries P 0 (rep_players r)) as [l|] eqn:E; [|discriminate]. destruct (proj1 (players_marks_ok _ _ _ _ _ _ _ _) (ex_intro _ _ E)) as [[I1|I1] I2].
    + split; [eexists; reflexivity|]. split; [discriminate|]. split; [rewrite I1; cbn [length]; lia|exact I2].
    + split; [eexists; reflexivity|]. split; [discriminate|]. split; [exact I1|exact I2].
  - intros ([entries ->] & Hp & Hl & Hs). destruct (rep_point r) as [P|]; [|contradiction]. destruct (proj2 (players_marks_ok _ _ sh exterior entries P (rep_players r) 0)) as [ms ->]; [|eexists; reflexivity].
    split; [right; exact Hl|exact Hs].
Qed.

(** A collision that the simulator could not resolve, whose report is made by get_empty, cannot
    be drawn. *)
Lemma C101_unresolved_refuted_pf : forall Sh Loc (sh : shapely Sh) exterior at_interp (players : list (nat * option (player_report Loc))) t entries,
  at_interp t = Ok entries -> plot_collision sh exterior at_interp (get_empty players t) = Err PyAttributeError.
Proof. intros Sh Loc sh exterior at_interp players t entries H. unfold plot_collision. cbn [get_empty rep_time rep_point]. rewrite H. reflexivity. Qed.

(** The arrow of the rotation does not show it: it is the same when everybody turns the other
    way round. *)
Lemma C101_turn_refuted_pf : forall Sh Loc (sh : shapely Sh) exterior at_interp (r : report Loc) marks,
  plot_collision sh exterior at_interp r = Ok marks -> exists marks', plot_collision sh exterior at_interp (other_way_round r) = Ok marks' /\
  forall a b, In (TurnArrow a b) marks <-> In (TurnArrow a b) marks'.
Proof.
  intros Sh Loc sh exterior at_interp r marks H. destruct (proj1 (C101_defined_pf _ _ sh exterior at_interp r) (ex_intro _ _ H)) as ([entries E1] & E2 & E3 & E4).
  assert (D : exists marks', plot_collision sh exterior at_interp (other_way_round r) = Ok marks').
  { apply C101_defined_pf. cbn [other_way_round rep_time rep_point rep_players]. split; [exists entries; exact E1|]. split; [exact E2|]. split; [rewrite map_length; exact E3|].
    intros p o Hi. apply in_map_iff in Hi as ([p' o'] & E & Hi). cbn [fst snd] in E. injection E as <- <-. destruct (E4 _ _ Hi) as (pr & path & -> & He & Hk). cbn [option_map].
    eexists _, path. split; [reflexivity|]. cbn [pr_footprint pr_locations]. split; [exact He|exact Hk]. }
  destruct D as [marks' D]. exists marks'. split; [exact D|]. intros a b.
  destruct (C101_picture_pf _ _ _ _ _ _ _ H) as (P & en & A1 & A2 & A3). destruct (C101_picture_pf _ _ _ _ _ _ _ D) as (P' & en' & B1 & B2 & B3). cbn [other_way_round rep_time rep_point rep_players] in B1, B2, B3.
  rewrite A1 in B1. injection B1 as <-. rewrite A2 in B2. injection B2 as <-. rewrite A3, B3. split.
  - intros [K|[K|(i & p & pr & c & K1 & K2 & K3)]]; [discriminate|discriminate|]. right. right. exists i, p. eexists. exists c.
    split; [rewrite nth_error_map, K1; reflexivity|]. split; [exact K2|]. inversion K3; subst. constructor.
  - intros [K|[K|(i & p & pr & c & K1 & K2 & K3)]]; [discriminate|discriminate|]. right. right. rewrite nth_error_map in K1. destruct (nth_error (rep_players r) i) as [[p' [pr'|]]|] eqn:En; cbn in K1; [|discriminate|discriminate].
    injection K1 as <- <-. exists i, p', pr', c. split; [exact En|]. split; [exact K2|]. inversion K3; subst. constructor.
Qed.

(** The picture of a collision that the simulator resolved, with the players in the log where
    they collided: it shows that the points in contact move towards each other, and each
    player's velocity changes along the normal. *)
Lemma C101_resolved_pf : forall Sh M Loc (sh : shapely Sh) (md : model_ops (Sh := Sh) M Loc) exterior at_interp a b ms sc t ms' rep marks entries n,
  flag_only md -> a <> b -> resolve_collision sh md a b ms sc t = (ms', Ok (Some rep)) -> rep_normal rep = Some n ->
  plot_collision sh exterior at_interp rep = Ok marks -> at_interp t = Ok entries ->
  (forall p m, p = a \/ p = b -> aget Nat.eqb ms p = Some m -> aget Nat.eqb entries p = Some (cog md m)) ->
  exists P ca cb da db ba bb aa ab, In (Dot P) marks /\ In (NormalArrow P (Some (vscale (2 / 10) n))) marks /\
    In (NameText ca a) marks /\ In (NameText cb b) marks /\ In (ContactArrow 0 P da) marks /\ In (ContactArrow 1 P db) marks /\ 0 <= vdot (vsub da db) n /\
    In (BeforeArrow ca ba) marks /\ In (AfterArrow ca (Some aa)) marks /\ vcross (vsub aa ba) n = 0 /\
    In (BeforeArrow cb bb) marks /\ In (AfterArrow cb (Some ab)) marks /\ vcross (vsub ab bb) n = 0.
Proof.
  intros Sh M Loc sh md exterior at_interp a b ms sc t ms' rep marks entries n Fl Hab H Hn Hp He Hpos.
  destruct (resolve_inv sh md a b ms sc t ms' rep Fl Hab H) as (ma & mb & va & wa & vb & wb & P & nrm & la & lb & fa & fb & I1 & I2 & I3 & I4 & _ & I6 & I7 & I8 & _ & _ & _ & _ & J).
  cbv zeta in J. destruct J as (J1 & aa & ab & J2 & _ & _ & J3). rewrite Hn in I7. specialize (J1 n (eq_sym I7)). specialize (J3 n (eq_sym I7)). cbv zeta in J3. destruct J3 as [J3 J4].
  destruct (C101_picture_pf _ _ _ _ _ _ _ Hp) as (P' & en & A1 & A2 & A3). rewrite I6 in A1. injection A1 as <-. rewrite I8, He in A2. injection A2 as <-. rewrite J2, Hn in A3. cbn [option_map] in A3.
  pose proof (Hpos a ma (or_introl eq_refl) I1) as Ca. pose proof (Hpos b mb (or_intror eq_refl) I2) as Cb.
  set (pa := mkPR la fa _ _ _ _) in A3. set (pb := mkPR lb fb _ _ _ _) in A3.
  assert (Sa : forall m, shown sh exterior P 0 a pa (cog md ma) m -> In m marks). { intros m Hm. apply A3. right. right. exists 0%nat, a, pa, (cog md ma). split; [reflexivity|]. split; [left; exact Ca|exact Hm]. }
  assert (Sb : forall m, shown sh exterior P 1 b pb (cog md mb) m -> In m marks). { intros m Hm. apply A3. right. right. exists 1%nat, b, pb, (cog md mb). split; [reflexivity|]. split; [left; exact Cb|exact Hm]. }
  set (j := compute_impulse_response n _ _ _ _ _) in *.
  exists P, (cog md ma), (cog md mb). do 6 eexists. split; [apply A3; left; reflexivity|]. split; [apply A3; right; left; reflexivity|].
  split; [apply Sa; constructor|]. split; [apply Sb; constructor|].
  split; [apply Sa; eapply sh_contact; reflexivity|]. split; [apply Sb; eapply sh_contact; reflexivity|]. split.
  { unfold contact. unfold velocity_of_P_given_A in J1. vunf. lra. }
  split; [apply Sa; eapply sh_before; reflexivity|]. split; [apply Sa; eapply sh_after; cbn [pr_velocity_after pa]; exact J3|]. split.
  { unfold velocity_after_collision, vover. vunf. destruct (g_m (md_geometry md ma)); cbn [over fst snd]; unfold Rdiv; ring. }
  split; [apply Sb; eapply sh_before; reflexivity|]. split; [apply Sb; eapply sh_after; cbn [pr_velocity_after pb]; exact J4|].
  unfold velocity_after_collision, vover. vunf. destruct (g_m (md_geometry md mb)); cbn [over fst snd]; unfold Rdiv; ring.
Qed.

(** The same against an obstacle of the environment, which is not in the log: it is drawn at
    rest, around its centre. *)
Lemma C101_resolved_environment_pf : forall Sh M Loc (sh : shapely Sh) (md : model_ops (Sh := Sh) M Loc) ew env exterior at_interp a m bs gb t m' rep marks entries n,
  flag_only md -> a <> env -> resolve_collision_with_environment sh md ew env a m bs gb t = (m', Ok (Some rep)) -> rep_normal rep = Some n ->
  plot_collision sh exterior at_interp rep = Ok marks -> at_interp t = Ok entries -> aget Nat.eqb entries a = Some (cog md m) -> aget Nat.eqb entries env = None ->
  exists P s d ba aa, In (Dot P) marks /\ In (NormalArrow P (Some (vscale (2 / 10) n))) marks /\ In (NameText (cog md m) a) marks /\
    In (ContactArrow 0 P d) marks /\ 0 <= vdot d n /\ In (BeforeArrow (cog md m) ba) marks /\ In (AfterArrow (cog md m) (Some aa)) marks /\ vcross (vsub aa ba) n = 0 /\
    (is_polygon sh bs = true -> s = bs) /\ In (NameText (centroid sh s) env) marks /\ In (ContactArrow 1 P (0, 0)) marks /\
    In (BeforeArrow (centroid sh s) (0, 0)) marks /\ In (AfterArrow (centroid sh s) (Some (0, 0))) marks.
Proof.
  intros Sh M Loc sh md ew env exterior at_interp a m bs gb t m' rep marks entries n Fl Hab H Hn Hp He Ca Cb.
  destruct (resolve_env_inv sh md ew env a m bs gb t m' rep Fl H) as (va & wa & P & nrm & la & pb & I1 & _ & I6 & I7 & I8 & _ & Ipb & J).
  cbv zeta in J. destruct J as (J1 & aa & J2 & _ & _ & J3). rewrite Hn in I7. specialize (J1 n (eq_sym I7)). specialize (J3 n (eq_sym I7)). cbv zeta in J3.
  destruct (C101_picture_pf _ _ _ _ _ _ _ Hp) as (P' & en & A1 & A2 & A3). rewrite I6 in A1. injection A1 as <-. rewrite I8, He in A2. injection A2 as <-. rewrite J2, Hn in A3. cbn [option_map] in A3.
  set (ra := mkPR la true _ _ _ _) in A3. set (re := mkPR [(ew, pb)] _ _ _ _ _) in A3.
  assert (Sa : forall k, shown sh exterior P 0 a ra (cog md m) k -> In k marks). { intros k Hm. apply A3. right. right. exists 0%nat, a, ra, (cog md m). split; [reflexivity|]. split; [left; exact Ca|exact Hm]. }
  assert (Sb : forall k, shown sh exterior P 1 env re (centroid sh pb) k -> In k marks). { intros k Hm. apply A3. right. right. exists 1%nat, env, re, (centroid sh pb). split; [reflexivity|]. split; [right; split; [exact Cb|reflexivity]|exact Hm]. }
  set (j := compute_impulse_response n _ _ _ _ _) in *.
  exists P, pb. do 3 eexists. split; [apply A3; left; reflexivity|]. split; [apply A3; right; left; reflexivity|].
  split; [apply Sa; constructor|].
  split; [apply Sa; eapply sh_contact; reflexivity|]. split.
  { unfold contact. unfold velocity_of_P_given_A in J1. vunf. lra. }
  split; [apply Sa; eapply sh_before; reflexivity|]. split; [apply Sa; eapply sh_after; cbn [pr_velocity_after ra]; exact J3|]. split.
  { unfold velocity_after_collision, vover. vunf. destruct (g_m (md_geometry md m)); cbn [over fst snd]; unfold Rdiv; ring. }
  split. { intro B. rewrite B in Ipb. congruence. }
  split; [apply Sb; constructor|].
  split. { replace (0, 0) with (3 / 10 * fst (contact (0, 0) 0 (centroid sh pb) P), 3 / 10 * snd (contact (0, 0) 0 (centroid sh pb) P)) by (unfold contact; cbn [fst snd]; f_equal; ring). apply Sb. eapply sh_contact; reflexivity. }
  split. { replace (0, 0) with (3 / 10 * fst (0, 0), 3 / 10 * snd (0, 0)) by (cbn [fst snd]; f_equal; ring). apply Sb. eapply sh_before; reflexivity. }
  replace (0, 0) with (3 / 10 * fst (0, 0), 3 / 10 * snd (0, 0)) by (cbn [fst snd]; f_equal; ring). apply Sb. eapply sh_after; reflexivity.
Qed.

(** The direction of the impact is the angle from the heading of the vehicle to the line from
    its centre to the point of impact, up to whole turns. *)
Lemma C102_direction_pf : forall c psi P, let d := get_impact_point_direction c psi P in
  P = vadd c (vscale (vdist P c) (cos (psi + d), sin (psi + d))).
Proof.
  intros [cx cy] psi [px py] d. unfold d, get_impact_point_direction, vdist, vsub. cbn [fst snd]. replace (psi + (atan2 (py - cy) (px - cx) - psi)) with (atan2 (py - cy) (px - cx)) by ring.
  destruct (atan2_spec (py - cy) (px - cx)) as [A B]. unfold vadd, vscale. cbn [fst snd]. rewrite A, B. f_equal; ring.
Qed.

(** It turns with the vehicle and does not depend on where the scene is. *)
Lemma C102_relative_pf : forall c psi P q th, let turned v := vadd q (vsub (cos th * fst v, cos th * snd v) (sin th * snd v, - (sin th * fst v))) in
  same_angle (get_impact_point_direction (turned c) (psi + th) (turned P)) (get_impact_point_direction c psi P) \/ P = c.
Proof.
  intros [cx cy] psi [px py] [qx qy] th turned. destruct (Req_EM_T (vnorm (px - cx, py - cy)) 0) as [Z|N].
  { right. apply vnorm_zero in Z. injection Z as Z1 Z2. f_equal; lra. }
  left. unfold turned, get_impact_point_direction, vadd, vsub. cbn [fst snd].
  set (x := px - cx) in *. set (y := py - cy) in *.
  replace (qy + (cos th * py - - (sin th * px)) - (qy + (cos th * cy - - (sin th * cx)))) with (sin th * x + cos th * y) by (unfold x, y; ring).
  replace (qx + (cos th * px - sin th * py) - (qx + (cos th * cx - sin th * cy))) with (cos th * x - sin th * y) by (unfold x, y; ring).
  destruct (atan2_spec y x) as [A B]. destruct (atan2_spec (sin th * x + cos th * y) (cos th * x - sin th * y)) as [C D].
  assert (E : vnorm (cos th * x - sin th * y, sin th * x + cos th * y) = vnorm (x, y)).
  { unfold vnorm, vdot. cbn [fst snd]. f_equal. pose proof (sin2_cos2 th) as S. unfold Rsqr in S. nra. }
  rewrite E in C, D. set (r := vnorm (x, y)) in *. set (u := atan2 (sin th * x + cos th * y) (cos th * x - sin th * y)) in *. set (w := atan2 y x) in *.
  assert (Cu : cos u = cos (th + w)). { rewrite cos_plus. apply (Rmult_eq_reg_l r); [|exact N]. rewrite C. transitivity (cos th * (r * cos w) - sin th * (r * sin w)); [rewrite A, B; ring|ring]. }
  assert (Su : sin u = sin (th + w)). { rewrite sin_plus. apply (Rmult_eq_reg_l r); [|exact N]. rewrite D. transitivity (sin th * (r * cos w) + cos th * (r * sin w)); [rewrite A, B; ring|ring]. }
  replace (w - psi) with ((th + w) - (psi + th)) by ring. split.
  - rewrite !(cos_minus _ (psi + th)), Cu, Su. reflexivity.
  - rewrite !(sin_minus _ (psi + th)), Cu, Su. reflexivity.
Qed.

(** It is in (-pi, pi] only for some headings. *)
Lemma C102_range_pf : forall c psi P, - PI - psi < get_impact_point_direction c psi P <= PI - psi.
Proof. intros c psi P. unfold get_impact_point_direction. pose proof (atan2_range (snd P - snd c) (fst P - fst c)). lra. Qed.

(** A vehicle with heading 3 that is hit on its left side: the angle is below -pi. *)
Lemma C102_normalised_refuted_pf : exists c psi P, - PI < psi <= PI /\ P <> c /\ get_impact_point_direction c psi P < - PI.
Proof.
  exists (0, 0), 3, (0, -1). pose proof PI_RGT_0. assert (P4 : PI <= 4) by apply PI_4. assert (P3 : 3 < PI) by (pose proof PI2_3_2; lra).
  split; [lra|]. split; [intros [= E]; lra|]. unfold get_impact_point_direction. cbn [fst snd]. unfold atan2.
  destruct (Rlt_dec 0 (0 - 0)); [lra|]. destruct (Rlt_dec (0 - 0) 0); [lra|]. destruct (Rlt_dec 0 (-1 - 0)); [lra|]. destruct (Rlt_dec (-1 - 0) 0); [|lra]. lra.
Qed.
