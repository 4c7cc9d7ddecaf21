(** Updates of the models integrate their equations of motion. *)
From Coq Require Import Reals List Lra Lia.
From Verif Require Import Base DynModel MoveModel IntegSpec.
Import ListNotations.
Open Scope R_scope.
(* BODY *)

Lemma firstn_snoc {A} (l : list A) x i : (i <= length l)%nat -> firstn i (l ++ [x]) = firstn i l.
Proof. intro L. rewrite firstn_app. replace (i - length l)%nat with 0%nat by lia. cbn. apply app_nil_r. Qed.

Lemma weighted_nil_r {X} (co : nat -> X -> R) i cs : weighted co i cs [] = 0.
Proof. unfold weighted. destruct cs; reflexivity. Qed.

Lemma comb_goes {X U} (P : plant X U) (co : nat -> X -> R)
  (Hadd : forall i a b, co i (p_addX P a b) = co i a + co i b) (Hsc : forall i k a, co i (p_scaleX P k a) = k * co i a)
  h : forall ks cs x u, goes co h cs x (map fst ks) (fst (rk_comb (fun a b : X * U => (p_addX P (fst a) (fst b), p_addU P (snd a) (snd b))) (fun k a => (p_scaleX P k (fst a), p_scaleU P k (snd a))) (x, u) h cs ks)).
Proof.
  unfold rk_comb. induction ks as [|[kx ku] ks IH]; intros [|c cs] x u i; cbn [combine map fold_left fst snd]; try (rewrite ?weighted_nil_r; unfold weighted; cbn; lra).
  rewrite (IH cs _ _ i), Hadd, Hsc. unfold weighted. cbn. ring.
Qed.

Lemma comb_held {X U} (P : plant X U) (Hu : forall u k v, p_addU P u (p_scaleU P k (p_scaleU P 0 v)) = u)
  h : forall ks cs x u, (forall k, In k ks -> exists v, snd k = p_scaleU P 0 v) ->
  snd (rk_comb (fun a b : X * U => (p_addX P (fst a) (fst b), p_addU P (snd a) (snd b))) (fun k a => (p_scaleX P k (fst a), p_scaleU P k (snd a))) (x, u) h cs ks) = u.
Proof.
  unfold rk_comb. induction ks as [|[kx ku] ks IH]; intros [|c cs] x u A; cbn [combine fold_left fst snd]; try reflexivity.
  destruct (A _ (or_introl eq_refl)) as [v E]. cbn in E. subst ku. rewrite Hu. apply IH. intros k I. apply A. right; exact I.
Qed.

Section Step.
Context {X U : Type} (P : plant X U) (co : nat -> X -> R) (c : bool) (st : X) (u : U).
Context (Hadd : forall i a b, co i (p_addX P a b) = co i a + co i b) (Hsc : forall i k a, co i (p_scaleX P k a) = k * co i a)
        (Hin : forall a b, (forall i, co i a = co i b) -> a = b)
        (Hu : forall u k v, p_addU P u (p_scaleU P k (p_scaleU P 0 v)) = u).
Let addY := (fun a b : X * U => (p_addX P (fst a) (fst b), p_addU P (snd a) (snd b))).
Let scaleY := (fun (k : R) (a : X * U) => (p_scaleX P k (fst a), p_scaleU P k (snd a))).
Let fn := (fun y : X * U => match p_dynamics P c st (fst y) (if p_ignore P c then p_zero P else snd y) with Some dx => Some (dx, p_scaleU P 0 (snd y)) | None => None end).
Let f := (fun x : X => p_dynamics P c st x (if p_ignore P c then p_zero P else u)).
Let zeros (ks : list (X * U)) := forall k, In k ks -> exists v, snd k = p_scaleU P 0 v.

Let prefix (rows : list (list R)) (h : R) (x : X) (ks : list X) :=
  forall i row, (i < length ks)%nat -> nth_error rows i = Some row -> exists z, goes co h row x (firstn i ks) z /\ f z = nth_error ks i.

Lemma cg h r x ks : goes co h r x (map fst ks) (fst (rk_comb addY scaleY (x, u) h r ks)).
Proof. apply (comb_goes P co Hadd Hsc). Qed.

Lemma ch h r x ks : zeros ks -> snd (rk_comb addY scaleY (x, u) h r ks) = u.
Proof. apply (comb_held P Hu). Qed.

Lemma fn_comb h r x ks : zeros ks ->
  fn (rk_comb addY scaleY (x, u) h r ks) = match f (fst (rk_comb addY scaleY (x, u) h r ks)) with Some dx => Some (dx, p_scaleU P 0 u) | None => None end.
Proof. intro Z. unfold fn, f. unfold addY, scaleY. rewrite (comb_held P Hu h ks r x u Z). reflexivity. Qed.

Lemma stages_rates h x : forall rows pre ks kf, length ks = length pre -> zeros ks -> prefix (pre ++ rows) h x (map fst ks) ->
  rk_stages addY scaleY fn (x, u) h rows ks = Some kf -> rates co f (pre ++ rows) h x (map fst kf) /\ zeros kf.
Proof.
  induction rows as [|r rows IH]; intros pre ks kf L Z Pr Q; cbn [rk_stages] in Q.
  - injection Q as <-. rewrite app_nil_r in *. split; [|exact Z]. split; [rewrite map_length; exact L|].
    intros i row E. apply Pr; [|exact E]. rewrite map_length, L. apply nth_error_Some. congruence.
  - rewrite fn_comb in Q by exact Z. destruct (f (fst (rk_comb addY scaleY (x, u) h r ks))) as [dx|] eqn:Ef; [|discriminate].
    replace (pre ++ r :: rows) with ((pre ++ [r]) ++ rows) in * by (rewrite <- app_assoc; reflexivity).
    apply (IH (pre ++ [r]) _ _) in Q; [exact Q| | |].
    + rewrite !app_length, L. reflexivity.
    + intros k I. apply in_app_or in I as [I|[<-|[]]]; [exact (Z k I)|]. exists u; reflexivity.
    + intros i row Li E. rewrite map_app in *. cbn [map fst] in *. rewrite app_length, map_length in Li. cbn in Li.
      rewrite firstn_snoc by (rewrite map_length; lia). destruct (Nat.eq_dec i (length ks)) as [->|N].
      * rewrite <- app_assoc in E. rewrite L, nth_error_app2, Nat.sub_diag in E by lia. injection E as <-.
        exists (fst (rk_comb addY scaleY (x, u) h r ks)). split.
        { rewrite <- (map_length fst ks), firstn_all. apply (comb_goes P co Hadd Hsc). }
        rewrite Ef, nth_error_app2, map_length, Nat.sub_diag by (rewrite map_length; lia). reflexivity.
      * assert (Li' : (i < length (map fst ks))%nat) by (rewrite map_length; lia).
        destruct (Pr i row Li' E) as (z & G & F). exists z. split; [exact G|]. rewrite nth_error_app1 by exact Li'. exact F.
Qed.

Lemma goes_unique h cs x ks y z : goes co h cs x ks y -> goes co h cs x ks z -> y = z.
Proof. intros A B. apply Hin. intro i. rewrite (A i), (B i). reflexivity. Qed.

Lemma stages_complete h x (K : list X) : forall rows pre ks, length ks = length pre -> zeros ks -> map fst ks = firstn (length pre) K ->
  rates co f (pre ++ rows) h x K -> exists kf, rk_stages addY scaleY fn (x, u) h rows ks = Some kf /\ map fst kf = K /\ zeros kf.
Proof.
  induction rows as [|r rows IH]; intros pre ks L Z E R; cbn [rk_stages].
  - exists ks. split; [reflexivity|]. split; [|exact Z]. rewrite app_nil_r in R. destruct R as [R _]. rewrite E, <- R, firstn_all. reflexivity.
  - rewrite fn_comb by exact Z. destruct R as [RL R]. destruct (R (length pre) r) as (z & G & F).
    { rewrite nth_error_app2, Nat.sub_diag by lia. reflexivity. }
    rewrite <- E in G. rewrite (goes_unique _ _ _ _ _ _ (cg h r x ks) G).
    destruct (nth_error K (length pre)) as [dx|] eqn:EK; [|exfalso; apply nth_error_None in EK; rewrite RL, app_length in EK; cbn in EK; lia].
    rewrite F. replace (pre ++ r :: rows) with ((pre ++ [r]) ++ rows) in * by (rewrite <- app_assoc; reflexivity).
    apply (IH (pre ++ [r])); [rewrite !app_length, L; reflexivity| | |split; assumption].
    + intros k I. apply in_app_or in I as [I|[<-|[]]]; [exact (Z k I)|]. exists u; reflexivity.
    + rewrite map_app, E, app_length. cbn. destruct (nth_error_split K (length pre) EK) as (l1 & l2 & -> & Ll).
      rewrite <- Ll. rewrite firstn_app, firstn_all, Nat.sub_diag. cbn. rewrite app_nil_r.
      rewrite (firstn_app (length l1 + 1)). rewrite firstn_all2 by lia. replace (length l1 + 1 - length l1)%nat with 1%nat by lia. reflexivity.
Qed.

Lemma solve_integrates tab : forall hs x y, (exists v, rk_solve addY scaleY fn tab (x, u) hs = Some (y, v)) <-> integrates co f tab x hs y.
Proof.
  induction hs as [|h hs IH]; intros x y; cbn [rk_solve].
  - split; [intros [v E]; injection E as <- _; apply stays|]. intro I. inversion I; subst. exists u. reflexivity.
  - unfold rk_step. split.
    + intros [v E]. destruct (rk_stages addY scaleY fn (x, u) h (fst tab) []) as [ks|] eqn:Es; [|discriminate].
      destruct (stages_rates h x (fst tab) [] [] ks eq_refl ltac:(intros k []) ltac:(intros i row Li; cbn in Li; lia) Es) as [R Z].
      rewrite (surjective_pairing (rk_comb addY scaleY (x, u) h (snd tab) ks)) in E. rewrite (ch h (snd tab) x ks Z) in E.
      eapply moves; [exact R|apply (cg h (snd tab) x ks)|]. apply IH. exists v. exact E.
    + intro I. inversion I as [|? ? ks x1 ? ? R G I']; subst.
      destruct (stages_complete h x ks (fst tab) [] [] eq_refl ltac:(intros k []) eq_refl R) as (kf & Es & Em & Z). rewrite Es.
      rewrite (surjective_pairing (rk_comb addY scaleY (x, u) h (snd tab) kf)). rewrite (ch h (snd tab) x kf Z).
      rewrite <- Em in G. rewrite (goes_unique _ _ _ _ _ _ (cg h (snd tab) x kf) G). apply IH. exact I'.
Qed.

Lemma update_integrates tab hs y : update P tab c st u hs = Some y <-> integrates co f tab st hs y.
Proof.
  rewrite <- solve_integrates. unfold update. fold addY scaleY fn.
  change (match rk_solve addY scaleY fn tab (st, u) hs with Some y => Some (fst y) | None => None end = Some y <-> exists v, rk_solve addY scaleY fn tab (st, u) hs = Some (y, v)).
  destruct (rk_solve addY scaleY fn tab (st, u) hs) as [[a v]|]; cbn; split.
  - intro E; injection E as ->. exists v; reflexivity.
  - intros [w E]; injection E as -> _; reflexivity.
  - discriminate.
  - intros [w E]; discriminate.
Qed.

End Step.

Ltac coords :=
  match goal with
  | |- forall i a b, _ = _ + _ => intros i [] []; do 9 (destruct i as [|i]; [cbn; try ring; reflexivity|]); cbn; destruct i; ring
  | |- forall i k a, _ = k * _ => intros i k []; do 9 (destruct i as [|i]; [cbn; try ring; reflexivity|]); cbn; destruct i; ring
  | |- forall a b, _ -> a = b => intros [] [] E; pose proof (E 0%nat); pose proof (E 1%nat); pose proof (E 2%nat); pose proof (E 3%nat); pose proof (E 4%nat); pose proof (E 5%nat); pose proof (E 6%nat); pose proof (E 7%nat); cbn in *; congruence
  | |- forall u k v, _ = u => intros [] k []; cbn; unfold vcm_add, vcm_scale; cbn; f_equal; ring
  end.

(** C112.  An update moves the state as the explicit Runge-Kutta method moves
    the solution of the equations of motion, every coordinate by its own rate,
    with the same commands during the whole update. *)

Theorem C112_vehicle : forall g p tab c st u hs st', update (vehicle_plant g p) tab c st u hs = Some st' <->
  integrates v_co (fun x => Some (vehicle_dynamics g p x (if (c && negb (vtype_eqb (vg_type g) CAR))%bool then mkVCm 0 0 else u))) tab st hs st'.
Proof. intros. apply (update_integrates (vehicle_plant g p) v_co); coords. Qed.

Theorem C112_vehicle_dyn : forall g p pf pr tab c st u hs st', update (vehicle_dyn_plant g p pf pr) tab c st u hs = Some st' <->
  integrates d_co (fun x => vehicle_dyn_dynamics g p pf pr c st x (if (c && negb (vtype_eqb (vg_type g) CAR))%bool then mkVCm 0 0 else u)) tab st hs st'.
Proof. intros. apply (update_integrates (vehicle_dyn_plant g p pf pr) d_co); coords. Qed.

Theorem C112_pedestrian : forall p tab c st u hs st', update (pedestrian_plant p) tab c st u hs = Some st' <->
  integrates s_co (fun x => Some (pedestrian_dynamics p c st x (if c then mkPC 0 0 else u))) tab st hs st'.
Proof. intros. apply (update_integrates (pedestrian_plant p) s_co); coords. Qed.

Theorem C112_diff_drive : forall wb wr lo hi tab c st u hs st', update (diff_drive_plant wb wr lo hi) tab c st u hs = Some st' <->
  integrates w_co (fun x => Some (diff_drive_dynamics wb wr lo hi x (if c then mkWC 0 0 else u))) tab st hs st'.
Proof. intros. apply (update_integrates (diff_drive_plant wb wr lo hi) w_co); coords. Qed.

Theorem C112_spacecraft : forall p lo hi w m Iz tab c st u hs st', update (spacecraft_plant p lo hi w m Iz) tab c st u hs = Some st' <->
  integrates s_co (fun x => Some (spacecraft_dynamics p lo hi w m Iz x (if c then mkSC 0 0 else u))) tab st hs st'.
Proof. intros. apply (update_integrates (spacecraft_plant p lo hi w m Iz) s_co); coords. Qed.

Theorem C112_obstacle : forall p lo hi tab c st u hs st', update (obstacle_plant p lo hi) tab c st u hs = Some st' <->
  integrates s_co (fun x => Some (obstacle_dynamics p lo hi x u)) tab st hs st'.
Proof. intros. apply (update_integrates (obstacle_plant p lo hi) s_co c st u); coords. Qed.

Theorem C112_rocket : forall p Iz l_m tab c st u hs st', update (rocket_plant p Iz l_m) tab c st u hs = Some st' <->
  integrates r_co (fun x => Some (rocket_dynamics p Iz l_m x (if c then mkRC 0 0 0 else u))) tab st hs st'.
Proof. intros. apply (update_integrates (rocket_plant p Iz l_m) r_co); coords. Qed.

Theorem C112_spaceship : forall p Iz l_r tab c st u hs st', update (spaceship_plant p Iz l_r) tab c st u hs = Some st' <->
  integrates r_co (fun x => Some (spaceship_dynamics p Iz l_r x (if c then mkSSC 0 0 else u))) tab st hs st'.
Proof. intros. apply (update_integrates (spaceship_plant p Iz l_r) r_co); coords. Qed.

(** The same for the dynamics of the planner. *)

Theorem C112_planner : forall g tab st u hs st', successor_ivp g tab st u hs = Ok st' <->
  integrates v_co (fun x => Some (bicycle_dynamics g x u)) tab st hs st'.
Proof.
  intros. rewrite <- (update_integrates (bicycle_plant g) v_co false st u); try coords. unfold successor_ivp.
  destruct (update _ _ _ _ _ _) as [y|]; split; intro E; try discriminate; injection E as ->; reflexivity.
Qed.

(** Two wheels turning alike: two steps of one second move the robot forward. *)
Example C112_ex : update (diff_drive_plant 1 (1 / 2) (-3) 3) ([[]], [1]) false (mk3 0 0 0) (mkWC 2 2) [1; 1] = Some (mk3 2 0 0) /\
  integrates w_co (fun x => Some (diff_drive_dynamics 1 (1 / 2) (-3) 3 x (mkWC 2 2))) ([[]], [1]) (mk3 0 0 0) [1; 1] (mk3 2 0 0).
Proof.
  assert (D : forall x y, diff_drive_dynamics 1 (1 / 2) (-3) 3 (mk3 x y 0) (mkWC 2 2) = mk3 1 0 0).
  { intros. unfold diff_drive_dynamics, rclip. cbn. rewrite cos_0, sin_0, Rmax_left, Rmin_left by (unfold Rmax, Rmin; repeat destruct Rle_dec; lra). f_equal; lra. }
  assert (I : integrates w_co (fun x => Some (diff_drive_dynamics 1 (1 / 2) (-3) 3 x (mkWC 2 2))) ([[]], [1]) (mk3 0 0 0) [1; 1] (mk3 2 0 0)).
  { apply (moves _ _ _ _ _ [mk3 1 0 0] (mk3 1 0 0)); [split; [reflexivity|]| |apply (moves _ _ _ _ _ [mk3 1 0 0] (mk3 2 0 0)); [split; [reflexivity|]| |constructor]].
    - intros [|[|i]] row E; try discriminate. injection E as <-. exists (mk3 0 0 0). split; [intro i; unfold weighted; cbn; lra|]. cbn. rewrite D. reflexivity.
    - intros [|[|[|[|i]]]]; unfold weighted; cbn; lra.
    - intros [|[|i]] row E; try discriminate. injection E as <-. exists (mk3 1 0 0). split; [intro i; unfold weighted; cbn; lra|]. cbn. rewrite D. reflexivity.
    - intros [|[|[|[|i]]]]; unfold weighted; cbn; lra. }
  split; [|exact I]. apply C112_diff_drive. exact I.
Qed.
