(** Lemmas on road boundaries. *)
From Coq Require Import Reals List ZArith Lia Lra.
From Verif Require Import Base R2 LaneModel RoadModel RoadSpec.
Import ListNotations.
Open Scope R_scope.

Lemma item_last_some {A} (l : list A) x : item_last l = Ok x -> exists k, l = k ++ [x].
Proof. unfold item_last. intro H. destruct (rev l) as [|y r] eqn:E; [discriminate|]. injection H as ->. exists (rev r). rewrite <- (rev_involutive l), E. reflexivity. Qed.
Lemma item_last_snoc {A} (l : list A) x : item_last (l ++ [x]) = Ok x.
Proof. unfold item_last. rewrite rev_app_distr. reflexivity. Qed.
Lemma item_0_some {A} (l : list A) x : item l 0 = Ok x -> exists k, l = x :: k.
Proof. unfold item. destruct l as [|y r]; cbn; [discriminate|]. intros [= ->]. eauto. Qed.
Lemma snoc_inj {A} (l k : list A) x y : l ++ [x] = k ++ [y] -> x = y.
Proof. intro H. apply app_inj_tail in H. tauto. Qed.

Section Road.
Context {P : Type} (exterior : P -> list vec) (interiors : P -> list (list vec)) (buffer_poly : list vec -> R -> P) (buffer_line : vec -> vec -> R -> P) (unary_union : list P -> list P) (difference : line -> P -> line).

Lemma gates_of_ok buffer ll gs : gates_of buffer_line buffer ll = Ok gs -> forall g, In g gs <-> exists a b, open_end [ll] a b /\ g = buffer_line a b (2 * buffer).
Proof.
  unfold gates_of. intros H g. destruct (match rl_successor ll with [] => _ | _ => _ end) as [exits|] eqn:X; [cbn [bind] in H|discriminate]. destruct (match rl_predecessor ll with [] => _ | _ => _ end) as [ents|] eqn:N; [cbn [bind] in H|discriminate]. injection H as <-.
  assert (A : In g exits <-> exists a b, (rl_successor ll = [] /\ (exists l, rl_right ll = l ++ [a]) /\ exists l, rl_left ll = l ++ [b]) /\ g = buffer_line a b (2 * buffer)).
  { destruct (rl_successor ll).
    - destruct (item_last (rl_right ll)) as [a|] eqn:R; [cbn [bind] in X|discriminate]. destruct (item_last (rl_left ll)) as [b|] eqn:L; [cbn [bind] in X|discriminate]. injection X as <-. apply item_last_some in R, L. destruct R as [r R], L as [l L]. split.
      + intros [<-|[]]. exists a, b. split; [eauto|]. f_equal. ring.
      + intros (a' & b' & (_ & (r' & R') & l' & L') & ->). rewrite R in R'. rewrite L in L'. apply snoc_inj in R', L'. subst. left. f_equal. ring.
    - injection X as <-. split; [intros []|]. intros (a & b & (E & _) & _). discriminate. }
  assert (B : In g ents <-> exists a b, (rl_predecessor ll = [] /\ (exists l, rl_right ll = a :: l) /\ exists l, rl_left ll = b :: l) /\ g = buffer_line a b (2 * buffer)).
  { clear X A. destruct (rl_predecessor ll).
    - destruct (item (rl_right ll) 0) as [a|] eqn:R; [cbn [bind] in N|discriminate]. destruct (item (rl_left ll) 0) as [b|] eqn:L; [cbn [bind] in N|discriminate]. injection N as <-. apply item_0_some in R, L. destruct R as [r R], L as [l L]. split.
      + intros [<-|[]]. exists a, b. split; [eauto|]. f_equal. ring.
      + intros (a' & b' & (_ & (r' & R') & l' & L') & ->). rewrite R in R'. rewrite L in L'. injection R' as -> _. injection L' as -> _. left. f_equal. ring.
    - injection N as <-. split; [intros []|]. intros (a & b & (E & _) & _). discriminate. }
  rewrite in_app_iff, A, B. split.
  - intros [(a & b & H & ->)|(a & b & H & ->)]; exists a, b; (split; [|reflexivity]); exists ll; (split; [left; reflexivity|]); auto.
  - intros (a & b & (ll' & [<-|[]] & [H|H]) & ->); eauto.
Qed.
Lemma lanelets_ok buffer lls ps gs : lanelets_loop buffer_poly buffer_line buffer lls = Ok (ps, gs) ->
  ps = map (fun ll => buffer_poly (rl_polygon ll) buffer) lls /\ forall g, In g gs <-> exists a b, open_end lls a b /\ g = buffer_line a b (2 * buffer).
Proof.
  revert ps gs. induction lls as [|ll r IH]; intros ps gs H; cbn [lanelets_loop] in H.
  - injection H as <- <-. split; [reflexivity|]. intro g. split; [intros []|]. intros (a & b & (ll & [] & _) & _).
  - destruct (gates_of buffer_line buffer ll) as [g0|] eqn:G; [cbn [bind] in H|discriminate]. destruct (lanelets_loop buffer_poly buffer_line buffer r) as [[ps' gs']|] eqn:L; [cbn [bind fst snd] in H|discriminate]. injection H as <- <-. destruct (IH _ _ eq_refl) as [-> I]. split; [reflexivity|].
    intro g. rewrite in_app_iff, I, (gates_of_ok _ _ _ G g). split.
    + intros [(a & b & (l' & [<-|[]] & H) & ->)|(a & b & (l' & X & H) & ->)]; exists a, b; (split; [|reflexivity]); eexists; (split; [|exact H]); [left; reflexivity|right; exact X].
    + intros (a & b & (l' & [<-|X] & H) & ->); [left|right]; exists a, b; (split; [|reflexivity]); eexists; (split; [|exact H]); [left; reflexivity|exact X].
Qed.
Lemma geoms_on g gs : geoms g = Ok gs -> forall p, on g p <-> exists l, In (Line l) gs /\ on_path l p.
Proof.
  destruct g as [l|l|ls]; try discriminate. intros [= <-] p. cbn [on]. split.
  - intros (l & I & H). exists l. split; [apply in_map; exact I|exact H].
  - intros (l & I & H). apply in_map_iff in I. destruct I as (x & [= ->] & I). eauto.
Qed.
Lemma geoms_lines g gs : geoms g = Ok gs -> forall x, In x gs -> exists l, x = Line l.
Proof. destruct g as [l|l|ls]; try discriminate. intros [= <-] x I. apply in_map_iff in I. destruct I as (l & <- & _). eauto. Qed.
Lemma fold_difference inside covers : right_difference inside covers difference -> forall gates g p,
  (on (fold_left difference gates g) p -> on g p /\ forall q, In q gates -> ~ inside q p) /\ (on g p -> (forall q, In q gates -> ~ covers q p) -> on (fold_left difference gates g) p).
Proof.
  intro D. induction gates as [|q gates IH]; intros g p; cbn [fold_left].
  - split; [intro H; split; [exact H|intros q []]|intros H _; exact H].
  - destruct (IH (difference g q) p) as [A B], (D g q p) as [A' B']. split.
    + intro H. destruct (A H) as [H1 H2]. destruct (A' H1) as [H3 H4]. split; [exact H3|]. intros q' [<-|I]; auto.
    + intros H N. apply B; [apply B'; [exact H|apply N; left; reflexivity]|]. intros q' I. apply N. right. exact I.
Qed.
Lemma parts_ok gates : forall parts bounds, parts_loop exterior interiors difference gates parts = Ok bounds ->
  (forall r, In (Ring r) bounds <-> exists part, In part parts /\ In r (interiors part)) /\
  (forall p, (exists l, In (Line l) bounds /\ on_path l p) <-> exists part, In part parts /\ on (fold_left difference gates (Ring (exterior part))) p) /\
  forall x, In x bounds -> (exists r, x = Ring r) \/ exists l, x = Line l.
Proof.
  induction parts as [|geo r IH]; intros bounds H; cbn [parts_loop] in H.
  - injection H as <-. split; [|split].
    + intro x. split; [intros []|intros (p & [] & _)].
    + intro p. split; [intros (l & [] & _)|intros (q & [] & _)].
    + intros x [].
  - cbv zeta in H. destruct (geoms (fold_left difference gates (Ring (exterior geo)))) as [gs|] eqn:G; [cbn [bind] in H|discriminate]. destruct (parts_loop exterior interiors difference gates r) as [rest|] eqn:L; [cbn [bind] in H|discriminate]. injection H as <-. destruct (IH rest eq_refl) as (A & B & C). split; [|split].
    + intro x. rewrite !in_app_iff, A. split.
      * intros [I|[I|(part & I & J)]].
        -- apply in_map_iff in I. destruct I as (y & [= ->] & I). exists geo. split; [left; reflexivity|exact I].
        -- destruct (geoms_lines _ _ G _ I). discriminate.
        -- exists part. split; [right; exact I|exact J].
      * intros (part & [<-|I] & J); [left; apply in_map; exact J|right; right; eauto].
    + intro p. split.
      * intros (l & I & J). rewrite !in_app_iff in I. destruct I as [I|[I|I]].
        -- apply in_map_iff in I. destruct I as (y & E & _). discriminate.
        -- exists geo. split; [left; reflexivity|]. apply (geoms_on _ _ G). eauto.
        -- destruct (proj1 (B p)) as (part & I' & J'); [eauto|]. exists part. split; [right; exact I'|exact J'].
      * intros (part & [<-|I] & J).
        -- apply (geoms_on _ _ G) in J. destruct J as (l & I & J). exists l. rewrite !in_app_iff. auto.
        -- destruct (proj2 (B p)) as (l & I' & J'); [eauto|]. exists l. rewrite !in_app_iff. auto.
    + intros x I. rewrite !in_app_iff in I. destruct I as [I|[I|I]]; [|right; exact (geoms_lines _ _ G x I)|exact (C x I)]. apply in_map_iff in I. destruct I as (y & <- & _). left. eauto.
Qed.
Lemma build_ok lls buffer bounds gates : build_road_boundary_obstacle exterior interiors buffer_poly buffer_line unary_union difference lls buffer = Ok (bounds, gates) ->
  (forall g, In g gates <-> exists a b, open_end lls a b /\ g = buffer_line a b (2 * buffer)) /\ parts_loop exterior interiors difference gates (unary_union (map (fun ll => buffer_poly (rl_polygon ll) buffer) lls)) = Ok bounds.
Proof.
  unfold build_road_boundary_obstacle. intro H. destruct (lanelets_loop buffer_poly buffer_line buffer lls) as [[ps gs]|] eqn:L; [cbn [bind fst snd] in H|discriminate]. destruct (parts_loop _ _ _ gs (unary_union ps)) as [b|] eqn:Q; [cbn [bind] in H|discriminate]. injection H as <- <-. apply lanelets_ok in L. destruct L as [-> L]. split; [exact L|exact Q].
Qed.
Lemma lanelets_defined buffer lls : (forall ll, In ll lls -> rl_left ll <> [] /\ rl_right ll <> []) -> exists ps gs, lanelets_loop buffer_poly buffer_line buffer lls = Ok (ps, gs).
Proof.
  induction lls as [|ll r IH]; intro H; cbn [lanelets_loop]; [eauto|]. destruct IH as (ps & gs & E); [intros x I; apply H; right; exact I|]. rewrite E. destruct (H ll (or_introl eq_refl)) as [NL NR].
  assert (G : exists g, gates_of buffer_line buffer ll = Ok g).
  { unfold gates_of. destruct (exists_last NL) as (l & b & EL), (exists_last NR) as (rr & a & ER). destruct (rl_left ll) as [|b0 l0] eqn:L0; [contradiction|]. destruct (rl_right ll) as [|a0 r0] eqn:R0; [contradiction|]. rewrite EL, ER, !item_last_snoc. rewrite <- EL, <- ER. cbn [bind].
    destruct (rl_successor ll); cbn [bind]; destruct (rl_predecessor ll); cbn; eauto. }
  destruct G as [g ->]. cbn [bind fst snd]. eauto.
Qed.
End Road.
