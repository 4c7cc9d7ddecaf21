(** Lemmas about scenarios. *)
From Coq Require Import String Reals Lra Psatz List Bool ZArith Lia Arith DecimalString DecimalNat DecimalFacts.
From Verif Require Import Base R2 GeoModel GeoProofs LaneModel LaneProofs BodyModel BodySpec BodyProofs ScenarioModel ScenarioSpec.
Import ListNotations.
Open Scope R_scope.
Local Open Scope string_scope.

Lemma str_nat_inj i j : str_nat i = str_nat j -> i = j.
Proof.
  intro E. unfold str_nat in E. assert (N : forall n, Nat.to_uint n <> Decimal.Nil). { intro n. rewrite <- (Unsigned.of_to n), Unsigned.to_of. apply unorm_nonnil. }
  apply (f_equal NilZero.uint_of_string) in E. rewrite !NilZero.usu in E by apply N. injection E as E. exact (Unsigned.to_uint_inj _ _ E).
Qed.
Lemma p_i_inj i j : p_i i = p_i j -> i = j.
Proof. unfold p_i. intros [= E]. exact (str_nat_inj _ _ E). Qed.
Lemma p_i_ego i : p_i i <> "Ego".
Proof. unfold p_i. discriminate. Qed.
Lemma name_fun ego i a b : player_name ego i a -> player_name ego i b -> a = b.
Proof. intros [[A1 ->]|[A1 ->]] [[B1 ->]|[B1 ->]]; congruence. Qed.
Lemma name_inj ego i j a : player_name ego i a -> player_name ego j a -> i = j.
Proof.
  intros [[A1 A2]|[A1 A2]] [[B1 B2]|[B1 B2]].
  - rewrite A1 in B1. injection B1 as B1. exact (str_nat_inj _ _ B1).
  - exfalso. apply (p_i_ego j). congruence.
  - exfalso. apply (p_i_ego i). congruence.
  - apply p_i_inj. congruence.
Qed.

Lemma item_last_app {A} (l : list A) x : item_last (l ++ [x]) = Ok x.
Proof. unfold item_last. rewrite rev_app_distr. reflexivity. Qed.
Lemma item_last_inv {A} (l : list A) x : item_last l = Ok x -> exists l', l = (l' ++ [x])%list.
Proof. unfold item_last. destruct (rev l) as [|y r] eqn:E; [discriminate|]. intros [= ->]. exists (rev r). rewrite <- (rev_involutive l), E. reflexivity. Qed.
Lemma static_parked o b : is_dyn_obstacle_static o (2 / 10) = Ok b -> (b = true <-> parked o).
Proof.
  unfold is_dyn_obstacle_static, state_list. destruct (do_states o) as [l|] eqn:S; [|discriminate]. cbn [bind]. destruct (item_last l) as [s|] eqn:L; [|discriminate]. cbn [bind]. intros [= <-]. apply item_last_inv in L as [l' ->]. rewrite ltb_iff. split.
  - intro H. exists l', s. auto.
  - intros (l2 & s2 & E & H). rewrite S in E. injection E as E. apply app_inj_tail in E as [_ ->]. exact H.
Qed.

Lemma aget_aset {V} (d : list (string * V)) k v k' : aget String.eqb (aset String.eqb d k v) k' = if String.eqb k k' then Some v else aget String.eqb d k'.
Proof.
  induction d as [|[a x] d IH]; cbn [aget aset].
  - destruct (String.eqb k k'); reflexivity.
  - destruct (String.eqb_spec a k) as [->|N]; cbn [aget].
    + destruct (String.eqb k k'); reflexivity.
    + rewrite IH. destruct (String.eqb_spec a k') as [->|N']; [|reflexivity]. destruct (String.eqb_spec k k') as [->|]; [contradiction|reflexivity].
Qed.
Lemma aget_keys {V} (d : list (string * V)) k : aget String.eqb d k <> None <-> In k (akeys d).
Proof.
  induction d as [|[a x] d IH]; cbn [aget akeys map fst In]; [split; [congruence|contradiction]|]. destruct (String.eqb_spec a k) as [->|N]; [split; [auto|discriminate]|]. fold (akeys d). rewrite IH. split; [auto|]. intros [E|E]; [contradiction|exact E].
Qed.
Lemma aset_new {V} (d : list (string * V)) k v : aget String.eqb d k = None -> aset String.eqb d k v = (d ++ [(k, v)])%list.
Proof.
  induction d as [|[a x] d IH]; intro H; [reflexivity|]. cbn [aget aset] in *. destruct (String.eqb a k); [discriminate|]. rewrite (IH H). reflexivity.
Qed.

Lemma keeps_app {A} (P : A -> Prop) l k l' k' : keeps P l k -> keeps P l' k' -> keeps P (l ++ l') (k ++ k').
Proof. intros H H'. induction H; cbn [app]; [exact H'|constructor; assumption|constructor; assumption]. Qed.

Lemma vehicle_iff o : is_vehicle (do_type o) = true <-> vehicle o.
Proof. unfold vehicle. destruct (do_type o); cbn; (split; [intro H; try discriminate; tauto|intro H; try reflexivity; exfalso; decompose [or] H; try discriminate; assumption]). Qed.

Section Import.
Variable mz : minimizer.
Variable net : network.

Lemma convert_done o color m agent : model_agent_from_dynamic_obstacle mz net o color = Done (m, agent) -> vehicle o /\ starts_as o m /\ infer_lane_from_dyn_obs mz net o = Ok agent /\ (exists p psi vx de g mi, m = Vehicle p psi vx de g mi color).
Proof.
  unfold model_agent_from_dynamic_obstacle. destruct (infer_model_from_cr_dyn_obstacle o color) as [m'| |] eqn:E; [|discriminate..]. cbn [cbind]. destruct (infer_lane_from_dyn_obs mz net o) as [lane|]; [|discriminate]. cbn [lift cbind]. destruct (make_lf_agent lane m') as [ag|] eqn:AG; [|discriminate]. cbn [lift cbind]. intros [= <- <-].
  destruct m'; [|discriminate]. injection AG as <-. unfold infer_model_from_cr_dyn_obstacle in E. destruct (is_vehicle (do_type o)) eqn:V.
  - apply vehicle_iff in V. split; [exact V|]. destruct (do_rectangle o) as [[le wi]|]; [|discriminate]. destruct (bind (state_list o) (fun s => item s 0)) as [s0|]; [|discriminate]. cbn [lift cbind] in E. destruct (Req_EM_T (le * (7 / 10)) 0); [discriminate|]. unfold starts_as.
    destruct (do_type o); injection E as <- <- <- <- <- <- <-; (split; [auto|]); (split; [reflexivity|]); do 6 eexists; reflexivity.
  - destruct (do_type o); discriminate.
Qed.
Lemma convert_unsupported o color : model_agent_from_dynamic_obstacle mz net o color = NotSupported <-> ~ supported o.
Proof.
  unfold model_agent_from_dynamic_obstacle. unfold infer_model_from_cr_dyn_obstacle, supported. split.
  - intro E. destruct (is_vehicle (do_type o)) eqn:V.
    + exfalso. destruct (do_rectangle o) as [[le wi]|]; [|discriminate]. destruct (bind (state_list o) (fun s => item s 0)) as [s0|]; [|discriminate]. cbn [lift cbind] in E. destruct (Req_EM_T (le * (7 / 10)) 0); [discriminate|].
      destruct (do_type o); try discriminate V; cbn [cbind] in E; (destruct (infer_lane_from_dyn_obs mz net o); [|discriminate]); discriminate.
    + destruct (do_type o); try discriminate V; cbn [cbind] in E.
      * exfalso. destruct (infer_lane_from_dyn_obs mz net o); discriminate.
      * cbn. intro H. decompose [or] H; try discriminate; assumption.
  - intro N. destruct (is_vehicle (do_type o)) eqn:V.
    + exfalso. apply N. apply vehicle_iff in V. unfold vehicle in V. cbn in *. tauto.
    + destruct (do_type o) eqn:T; try discriminate V; [|reflexivity]. exfalso. apply N. cbn. tauto.
Qed.

Definition is_name (ego : option string) (i : nat) : string := if match ego with Some e => String.eqb (p_i i) e | None => false end then "Ego" else p_i i.
Lemma is_name_spec ego i : player_name ego i (is_name ego i).
Proof.
  unfold is_name. destruct ego as [e|]; [|right; split; [discriminate|reflexivity]]. destruct (String.eqb_spec (p_i i) e) as [<-|N]; [left; auto|right; split; [congruence|reflexivity]].
Qed.
Lemma name_eq ego i k : player_name ego i k -> k = is_name ego i.
Proof. intro H. exact (name_fun _ _ _ _ H (is_name_spec ego i)). Qed.

(** The state of the loop after the obstacles [l] (from index 0). *)
Definition inv (ego : option string) (l : list dyn_obs) (st : loop_state) : Prop :=
  let '(players, models, statics) := st in
  akeys players = akeys models /\ NoDup (akeys players) /\
  (forall k, In k (akeys players) -> exists i, (i < length l)%nat /\ k = is_name ego i) /\
  (forall i o, nth_error l i = Some o -> (In (is_name ego i) (akeys players) <-> ~ parked o /\ supported o)) /\
  (forall i o, nth_error l i = Some o -> ~ parked o -> supported o -> exists m agent, aget String.eqb players (is_name ego i) = Some agent /\ aget String.eqb models (is_name ego i) = Some m /\ vehicle o /\ starts_as o m /\ infer_lane_from_dyn_obs mz net o = Ok agent /\ exists p psi vx de g mi, m = Vehicle p psi vx de g mi (if String.eqb (is_name ego i) "Ego" then "firebrick" else "royalblue")) /\
  exists ps, keeps parked l ps /\ statics = map (fun o => (do_type o, map (in_world (do_position o) (do_orientation o)) (do_shape o))) ps.

Lemma inv_step ego l o st st' : inv ego l st -> import_step mz net ego (length l) o st = Ok st' -> inv ego (l ++ [o]) st'.
Proof.
  destruct st as [[players models] statics]. intros (I1 & I2 & I3 & I4 & I5 & ps & I6 & I7) E. unfold import_step in E. destruct (do_states o) as [states|] eqn:DS; [|discriminate]. destruct (is_dyn_obstacle_static o (2 / 10)) as [static|] eqn:ST; [|discriminate]. pose proof (static_parked o static ST) as PK. cbn [bind] in E.
  assert (L : length (l ++ [o]) = S (length l)) by (rewrite app_length; cbn; lia).
  assert (FR : ~ In (is_name ego (length l)) (akeys players)). { intro H. destruct (I3 _ H) as (i & Hi & EQ). pose proof (name_inj ego i (length l) (is_name ego (length l))) as X. rewrite EQ in X at 1. specialize (X (is_name_spec ego i) (is_name_spec ego (length l))). lia. }
  assert (NTH : forall i o', nth_error (l ++ [o]) i = Some o' -> (nth_error l i = Some o' /\ i <> length l) \/ (i = length l /\ o' = o)).
  { intros i o' H. destruct (Nat.lt_ge_cases i (length l)) as [C|C]; [rewrite nth_error_app1 in H by exact C; left; split; [exact H|lia]|]. rewrite nth_error_app2 in H by exact C. destruct (i - length l)%nat as [|[|k]] eqn:D; cbn in H; try discriminate. injection H as <-. right. split; [lia|reflexivity]. }
  assert (NE : forall i, i <> length l -> is_name ego i <> is_name ego (length l)). { intros i Hi EQ. apply Hi. apply (name_inj ego i (length l) (is_name ego i)); [apply is_name_spec|rewrite EQ; apply is_name_spec]. }
  destruct static.
  - assert (P : parked o) by (apply PK; reflexivity). injection E as <-. split; [exact I1|]. split; [exact I2|]. split; [intros k K; destruct (I3 k K) as (i & Hi & ->); exists i; split; [rewrite L; lia|reflexivity]|]. split; [|split].
    + intros i o' H. destruct (NTH i o' H) as [[H' _]|[-> ->]]; [exact (I4 i o' H')|]. split; [intro K; contradiction|intros [NP _]; contradiction].
    + intros i o' H NP. destruct (NTH i o' H) as [[H' _]|[-> ->]]; [exact (I5 i o' H' NP)|contradiction].
    + exists (ps ++ [o])%list. split; [apply keeps_app; [exact I6|constructor; [exact P|constructor]]|]. rewrite map_app, I7. cbn [map]. rewrite apply_world. reflexivity.
  - assert (P : ~ parked o) by (intro P; apply PK in P; discriminate). fold (p_i (length l)) in E. set (ise := match ego with Some e => String.eqb (p_i (length l)) e | None => false end) in E.
    assert (NM : (if ise then "Ego" else p_i (length l)) = is_name ego (length l)) by reflexivity. rewrite NM in E.
    destruct (model_agent_from_dynamic_obstacle mz net o (if ise then "firebrick" else "royalblue")) as [[m agent]| |e] eqn:CV; [| |discriminate].
    + apply convert_done in CV as (V & SA & LN & CO). injection E as <-. assert (FP : aget String.eqb players (is_name ego (length l)) = None) by (destruct (aget String.eqb players (is_name ego (length l))) eqn:G; [exfalso; apply FR, aget_keys; congruence|reflexivity]).
      assert (FM : aget String.eqb models (is_name ego (length l)) = None) by (destruct (aget String.eqb models (is_name ego (length l))) eqn:G; [exfalso; apply FR; rewrite I1; apply aget_keys; congruence|reflexivity]).
      assert (KP : akeys (aset String.eqb players (is_name ego (length l)) agent) = (akeys players ++ [is_name ego (length l)])%list) by (rewrite (aset_new _ _ _ FP); unfold akeys; rewrite map_app; reflexivity).
      assert (KM : akeys (aset String.eqb models (is_name ego (length l)) m) = (akeys models ++ [is_name ego (length l)])%list) by (rewrite (aset_new _ _ _ FM); unfold akeys; rewrite map_app; reflexivity).
      assert (SUP : supported o) by (unfold supported, vehicle in *; cbn in *; tauto).
      split; [rewrite KP, KM, I1; reflexivity|]. split; [rewrite KP; apply NoDup_rev in I2; rewrite <- (rev_involutive (akeys players ++ [_])); apply NoDup_rev; rewrite rev_app_distr; cbn [rev app]; constructor; [rewrite <- in_rev; exact FR|exact I2]|].
      split; [intros k K; rewrite KP in K; apply in_app_iff in K as [K|[<-|[]]]; [destruct (I3 k K) as (i & Hi & ->); exists i; split; [rewrite L; lia|reflexivity]|exists (length l); split; [rewrite L; lia|reflexivity]]|]. split; [|split].
      * intros i o' H. rewrite KP, in_app_iff. destruct (NTH i o' H) as [[H' Hi]|[-> ->]].
        -- rewrite <- (I4 i o' H'). split; [intros [K|[K|[]]]; [exact K|exfalso; exact (NE i Hi (eq_sym K))]|auto].
        -- split; [auto|intros _; right; left; reflexivity].
      * intros i o' H NP SU. rewrite !aget_aset. destruct (NTH i o' H) as [[H' Hi]|[-> ->]].
        -- destruct (String.eqb_spec (is_name ego (length l)) (is_name ego i)) as [X|X]; [exfalso; exact (NE i Hi (eq_sym X))|]. exact (I5 i o' H' NP SU).
        -- rewrite String.eqb_refl. exists m, agent. do 5 (split; [first [reflexivity|assumption]|]). destruct CO as (p & psi & vx & de & g & mi & ->). do 6 eexists. f_equal.
           unfold is_name. fold ise. destruct ise; [reflexivity|]. destruct (String.eqb_spec (p_i (length l)) "Ego") as [X|X]; [exfalso; exact (p_i_ego _ X)|reflexivity].
      * exists ps. split; [|exact I7]. rewrite <- (List.app_nil_r ps). apply keeps_app; [exact I6|constructor; [exact P|constructor]].
    + apply convert_unsupported in CV. injection E as <-. split; [exact I1|]. split; [exact I2|]. split; [intros k K; destruct (I3 k K) as (i & Hi & ->); exists i; split; [rewrite L; lia|reflexivity]|]. split; [|split].
      * intros i o' H. destruct (NTH i o' H) as [[H' _]|[-> ->]]; [exact (I4 i o' H')|]. split; [intro K; contradiction|intros [_ SU]; contradiction].
      * intros i o' H NP SU. destruct (NTH i o' H) as [[H' _]|[-> ->]]; [exact (I5 i o' H' NP SU)|contradiction].
      * exists ps. split; [|exact I7]. rewrite <- (List.app_nil_r ps). apply keeps_app; [exact I6|constructor; [exact P|constructor]].
Qed.

Lemma inv_loop ego l2 : forall l1 st st', inv ego l1 st -> import_loop mz net ego (length l1) l2 st = Ok st' -> inv ego (l1 ++ l2) st'.
Proof.
  induction l2 as [|o l2 IH]; intros l1 st st' I E; [injection E as <-; rewrite List.app_nil_r; exact I|]. cbn [import_loop] in E. destruct (import_step mz net ego (length l1) o st) as [st1|] eqn:ST; [|discriminate]. cbn [bind] in E.
  pose proof (inv_step _ _ _ _ _ I ST) as I'. replace (S (length l1)) with (length (l1 ++ [o])) in E by (rewrite app_length; cbn; lia). specialize (IH _ _ _ I' E). rewrite <- app_assoc in IH. exact IH.
Qed.
Lemma inv_init ego : inv ego [] ([], [], []).
Proof.
  cbn. split; [reflexivity|]. split; [constructor|]. split; [contradiction|]. split; [intros [|i] o; discriminate|]. split; [intros [|i] o; discriminate|]. exists []. split; [constructor|reflexivity].
Qed.
Lemma replica_inv dyn stat ego am c : get_scenario_commonroad_replica mz net dyn stat ego am = Ok c -> exists statics, inv ego dyn (c_players c, c_models c, statics) /\ c_statics c = (statics ++ map (fun s => (so_type s, so_shape s)) stat)%list /\ c_missions c = [].
Proof.
  unfold get_scenario_commonroad_replica. destruct (import_loop mz net ego 0 dyn ([], [], [])) as [[[players models] statics]|] eqn:E; [|discriminate]. cbn [bind]. destruct (_ && _); [|discriminate]. intros [= <-]. exists statics. split; [|auto]. exact (inv_loop ego dyn [] _ _ (inv_init ego) E).
Qed.
Lemma keys_ok (a b : list string) : a = b -> forallb (fun k => existsb (String.eqb k) b) a = true.
Proof. intros ->. apply forallb_forall. intros k K. apply existsb_exists. exists k. split; [exact K|apply String.eqb_refl]. Qed.
Lemma replica_ok dyn stat ego am : (exists st, import_loop mz net ego 0 dyn ([], [], []) = Ok st) -> exists c, get_scenario_commonroad_replica mz net dyn stat ego am = Ok c.
Proof.
  intros [[[players models] statics] E]. unfold get_scenario_commonroad_replica. rewrite E. cbn [bind]. destruct (inv_loop ego dyn [] _ _ (inv_init ego) E) as (K & _). rewrite !keys_ok by congruence. eexists. reflexivity.
Qed.
End Import.
Lemma vdist_x_le a b : Rabs (fst a - fst b) <= vdist a b.
Proof.
  unfold vdist, vnorm, vdot, vsub. cbn [fst snd]. rewrite <- sqrt_Rsqr_abs. apply sqrt_le_1_alt. unfold Rsqr. pose proof (Rle_0_sqr (snd a - snd b)) as X. unfold Rsqr in X. lra.
Qed.

(** ** Lanes *)
Lemma traverse_all {A B} (f : A -> result B) l ys : traverse f l = Ok ys -> Forall2 (fun x y => f x = Ok y) l ys.
Proof.
  revert ys. induction l as [|x l IH]; intros ys; cbn [traverse]; [intros [= <-]; constructor|]. destruct (f x) as [y|] eqn:E; [|discriminate]. cbn [bind]. destruct (traverse f l) as [ys'|]; [|discriminate]. intros [= <-]. constructor; [exact E|]. apply IH. reflexivity.
Qed.
Lemma traverse_defined {A B} (f : A -> result B) l : (forall x, In x l -> exists y, f x = Ok y) -> exists ys, traverse f l = Ok ys.
Proof.
  induction l as [|x l IH]; intro H; [exists []; reflexivity|]. cbn [traverse]. destruct (H x (or_introl eq_refl)) as [y ->]. destruct IH as [ys ->]; [intros x' X; apply H; right; exact X|]. eexists. reflexivity.
Qed.
Lemma forall2_in_l {A B} (R : A -> B -> Prop) l l' x : Forall2 R l l' -> In x l -> exists y, In y l' /\ R x y.
Proof. induction 1 as [|a b l l' H _ IH]; [contradiction|]. intros [<-|X]; [exists b; split; [left; reflexivity|exact H]|]. destruct (IH X) as (y & Y & Z). exists y. split; [right; exact Y|exact Z]. Qed.
Lemma forall2_in_r {A B} (R : A -> B -> Prop) l l' y : Forall2 R l l' -> In y l' -> exists x, In x l /\ R x y.
Proof. induction 1 as [|a b l l' H _ IH]; [contradiction|]. intros [<-|X]; [exists a; split; [left; reflexivity|exact H]|]. destruct (IH X) as (x & Y & Z). exists x. split; [right; exact Y|exact Z]. Qed.
Lemma forall2_nth {A B} (R : A -> B -> Prop) l l' i x : Forall2 R l l' -> nth_error l i = Some x -> exists y, nth_error l' i = Some y /\ R x y.
Proof. intro H. revert i. induction H as [|a b l l' H _ IH]; intros [|i] E; cbn in *; try discriminate; [injection E as <-; exists b; auto|exact (IH i E)]. Qed.
Lemma forall2_nth_r {A B} (R : A -> B -> Prop) l l' i y : Forall2 R l l' -> nth_error l' i = Some y -> exists x, nth_error l i = Some x /\ R x y.
Proof. intro H. revert i. induction H as [|a b l l' H _ IH]; intros [|i] E; cbn in *; try discriminate; [injection E as <-; exists a; auto|exact (IH i E)]. Qed.

Lemma argmin_loop_spec l : forall pre best bv, nth_error pre best = Some bv -> (forall x, In x pre -> bv <= x) ->
  let k := argmin_loop best bv (length pre) l in exists v, nth_error (pre ++ l) k = Some v /\ forall x, In x (pre ++ l) -> v <= x.
Proof.
  induction l as [|x l IH]; intros pre best bv N M; cbn zeta; cbn [argmin_loop].
  - rewrite List.app_nil_r. exists bv. auto.
  - assert (L : length (pre ++ [x]) = S (length pre)) by (rewrite app_length; cbn; lia). assert (A : (pre ++ x :: l = (pre ++ [x]) ++ l)%list) by (rewrite <- app_assoc; reflexivity). rewrite A. destruct (ltb x bv) eqn:C.
    + apply ltb_iff in C. specialize (IH (pre ++ [x])%list (length pre) x). rewrite L in IH. apply IH; [rewrite nth_error_app2, Nat.sub_diag by lia; reflexivity|]. intros y Y. apply in_app_iff in Y as [Y|[<-|[]]]; [specialize (M y Y)|]; lra.
    + apply ltb_false in C. specialize (IH (pre ++ [x])%list best bv). rewrite L in IH. apply IH; [rewrite nth_error_app1; [exact N|apply nth_error_Some; congruence]|]. intros y Y. apply in_app_iff in Y as [Y|[<-|[]]]; [exact (M y Y)|lra].
Qed.
Lemma argmin_spec l k : argmin l = Ok k -> exists v, nth_error l k = Some v /\ forall x, In x l -> v <= x.
Proof. destruct l as [|x l]; [discriminate|]. intros [= <-]. apply (argmin_loop_spec l [x] 0%nat x eq_refl). intros y [<-|[]]. lra. Qed.

Lemma item_nth {A} (l : list A) k x : item l k = Ok x <-> nth_error l k = Some x.
Proof. unfold item. destruct (nth_error l k); split; congruence. Qed.

(** Strings *)
Lemma substring_app x a y : substring (String.length x) (String.length a) (x ++ a ++ y) = a.
Proof. induction x as [|c x IH]; cbn [String.length append substring]; [|exact IH]. induction a as [|c a IH]; cbn [String.length append substring]; [destruct y; reflexivity|rewrite IH; reflexivity]. Qed.
Lemma append_assoc (a b c : string) : (a ++ b) ++ c = a ++ b ++ c.
Proof. induction a as [|x a IH]; [reflexivity|]. cbn [append]. rewrite IH. reflexivity. Qed.
Lemma append_nil (a : string) : a ++ "" = a.
Proof. induction a as [|x a IH]; [reflexivity|]. cbn [append]. rewrite IH. reflexivity. Qed.
Lemma str_in_app x a y : str_in a (x ++ a ++ y) = true.
Proof.
  unfold str_in. destruct (String.index 0 a (x ++ a ++ y)) eqn:E; [reflexivity|]. exfalso. destruct (string_dec a "") as [->|N].
  - destruct (x ++ "" ++ y); discriminate.
  - apply (String.index_correct3 0 (String.length x) _ _ E N (Nat.le_0_l _)). apply substring_app.
Qed.
Lemma prefix_app a b : String.prefix a b = true -> exists y, b = a ++ y.
Proof.
  revert b. induction a as [|c a IH]; intros b H; [exists b; reflexivity|]. destruct b as [|d b]; cbn in H; [discriminate|]. destruct (Ascii.ascii_dec c d) as [->|]; [|discriminate].
  destruct (IH b H) as [y ->]. exists y. reflexivity.
Qed.
Lemma str_in_iff a b : str_in a b = true <-> exists x y, b = x ++ a ++ y.
Proof.
  split; [|intros (x & y & ->); apply str_in_app]. unfold str_in. induction b as [|c b IH]; cbn [String.index]; intro H.
  - destruct a; [exists "", ""; reflexivity|discriminate].
  - destruct (String.prefix a (String c b)) eqn:P; [destruct (prefix_app _ _ P) as [y E]; exists "", y; exact E|].
    destruct (String.index 0 a b); [|discriminate]. destruct (IH eq_refl) as (x & y & ->). exists (String c x), y. reflexivity.
Qed.

Lemma cand_iff net p final inits cs : lanelets_at net p = inits -> traverse (candidates_from net final) inits = Ok cs -> forall lane, In lane (concat cs) <-> candidate net p final lane.
Proof.
  intros EI T lane. apply traverse_all in T. rewrite in_concat. split.
  - intros (c & C & I). destruct (forall2_in_r _ _ _ _ T C) as (i & II & E). unfold candidates_from in E. destruct (merged_from net i) as [merged|] eqn:M; [|discriminate]. cbn [bind] in E. apply traverse_all in E. destruct (forall2_in_r _ _ _ _ E I) as ([id [[l r] ce]] & F & V). apply filter_In in F as [F G]. apply existsb_exists in G as (f & G1 & G2). cbn [fst snd] in *. apply str_in_iff in G2. exists i, merged, id, l, r, ce, f. rewrite EI. repeat (split; [assumption|]). exact V.
  - intros (i & merged & id & l & r & ce & f & II & M & IM & F & S & V). rewrite EI in II. apply str_in_iff in S. destruct (forall2_in_l _ _ _ _ T II) as (c & C & E). exists c. split; [exact C|]. unfold candidates_from in E. rewrite M in E. cbn [bind] in E. apply traverse_all in E.
    destruct (forall2_in_l _ _ _ (id, (l, r, ce)) E) as (y & Y & Z); [apply filter_In; split; [exact IM|]; apply existsb_exists; exists f; auto|]. cbn [snd] in Z. rewrite V in Z. injection Z as <-. exact Y.
Qed.

(** The two outcomes of the inference. *)
Lemma infer_cases mz net o states last lane : do_states o = Some (states ++ [last])%list -> infer_lane_from_dyn_obs mz net o = Ok lane ->
  let final := lanelets_at net (st_position last) in
  (lane = dglane_from_trajectory (states ++ [last]) /\ forall c, ~ candidate net (do_position o) final c) \/
  (candidate net (do_position o) final lane /\ forall c a, candidate net (do_position o) final c -> closest_angle mz c (do_position o) = Ok a ->
     exists a', closest_angle mz lane (do_position o) = Ok a' /\ Rabs (do_orientation o - a') <= Rabs (do_orientation o - a)).
Proof.
  intros DS E final. unfold infer_lane_from_dyn_obs, state_list in E. rewrite DS in E. cbn [bind] in E. rewrite item_last_app in E. cbn [bind] in E. fold final in E.
  assert (NC : lanelets_at net (do_position o) = [] \/ final = [] -> forall c, ~ candidate net (do_position o) final c). { intros N c (i & ? & ? & ? & ? & ? & f & I & _ & _ & F & _). destruct N as [N|N]; [rewrite N in I; exact I|rewrite N in F; exact F]. }
  destruct (lanelets_at net (do_position o)) as [|i0 il] eqn:EI; [left; injection E as <-; auto|]. destruct final as [|f0 fl] eqn:EF; [left; injection E as <-; auto|]. clear NC. rewrite <- EF in *. clear EF f0 fl.
  destruct (traverse (candidates_from net final) (i0 :: il)) as [cs|] eqn:T; [|discriminate]. cbn [bind] in E. pose proof (cand_iff net _ final _ cs EI T) as CI.
  destruct (concat cs) as [|c1 [|c2 cl]] eqn:CC.
  - left. injection E as <-. split; [reflexivity|]. intros c C. apply CI in C. exact C.
  - right. injection E as <-. split; [apply CI; left; reflexivity|]. intros c a C A. apply CI in C as [<-|[]]. exists a. split; [exact A|lra].
  - right. rewrite <- CC in *. destruct (traverse _ (concat cs)) as [angles|] eqn:TA; [|discriminate]. cbn [bind] in E. destruct (argmin angles) as [k|] eqn:AM; [|discriminate]. cbn [bind] in E. apply item_nth in E. apply argmin_spec in AM as (v & NV & MV). apply traverse_all in TA.
    split; [apply CI, (nth_error_In _ _ E)|]. intros c a C A. apply CI in C. destruct (forall2_nth _ _ _ _ _ TA E) as (v' & NV' & FV). rewrite NV in NV'. injection NV' as <-. destruct (closest_angle mz lane (do_position o)) as [a'|]; [|discriminate]. cbn [bind] in FV. injection FV as <-. exists a'. split; [reflexivity|]. destruct (forall2_in_l _ _ _ _ TA C) as (w & W & FW). rewrite A in FW. cbn [bind] in FW. injection FW as <-. exact (MV _ W).
Qed.

Lemma closest_defined mz lane p : lane <> [] -> exists a, closest_angle mz lane p = Ok a.
Proof.
  intro N. unfold closest_angle, find_along_lane_closest_point_fast. destruct lane as [|c l]; [contradiction|]. cbn [item nth_error bind]. match goal with |- context [center_point_fast _ ?b] => match b with mz _ _ _ => set (b0 := b) end end. destruct (cp_defined (c :: l) b0 N) as (q & r & t & _ & _ & -> & _). cbn [bind]. eexists. reflexivity.
Qed.

Lemma heading_lane mz lane p th : lane <> [] -> - PI < th <= PI -> (forall c, In c lane -> t_theta (cp_q c) = th) -> closest_angle mz lane p = Ok th.
Proof.
  intros N T H. unfold closest_angle, find_along_lane_closest_point_fast. destruct lane as [|c l] eqn:EL; [contradiction|]. cbn [item nth_error bind]. rewrite <- EL in *. match goal with |- context [center_point_fast _ ?b] => match b with mz _ _ _ => set (b0 := b) end end.
  assert (K : exists t, center_point_fast lane b0 = Ok t /\ t_theta t = th).
  { destruct (first_last lane N) as (c0 & c1 & H0 & H1). assert (AH : forall c, In c lane -> t_theta (from_SE2 (ahead01 (as_SE2 (cp_q c)))) = th).
    { intros x X. unfold from_SE2, ahead01, as_SE2. cbn [t_theta]. rewrite se2_mul. rewrite (H x X), Rplus_0_r. apply angle_id. exact T. }
    unfold center_point_fast. destruct (ifloor b0 <? 0)%Z eqn:ZZ.
    - destruct lane as [|x l']; [contradiction|]. cbn [item nth_error bind]. eexists. split; [reflexivity|]. unfold lerp. cbn [t_theta]. rewrite AH, H by (left; reflexivity). ring.
    - destruct (ifloor b0 >=? _)%Z eqn:G.
      + destruct (item_last lane) as [x|] eqn:IL; [|exfalso; unfold item_last in IL; destruct (rev lane) eqn:RV; [apply N; rewrite <- (rev_involutive lane), RV; reflexivity|discriminate]]. cbn [bind]. apply item_last_inv in IL as [l' IL]. assert (X : In x lane) by (rewrite IL; apply in_app_iff; right; left; reflexivity). eexists. split; [reflexivity|]. unfold lerp. cbn [t_theta]. rewrite AH, H by exact X. ring.
      + destruct (cp_defined lane b0 N) as (q & r & t & _ & _ & E & _). unfold center_point_fast in E. rewrite ZZ in E.
        rewrite G in E. destruct (item lane (Z.to_nat (ifloor b0))) as [x|] eqn:I0; [|discriminate]. cbn [bind] in *. destruct (item lane (Z.to_nat (ifloor b0) + 1)) as [y|] eqn:I1; [|discriminate]. cbn [bind]. apply item_nth, nth_error_In in I0, I1. eexists. split; [reflexivity|]. unfold lerp. cbn [t_theta]. rewrite (H _ I0), (H _ I1). ring. }
  destruct K as (t & -> & TH). cbn [bind snd]. unfold as_SE2. rewrite TH, angle_id by exact T. reflexivity.
Qed.

Lemma parts_in id parts f : id_of_parts id parts -> In f parts -> exists before after, str_int id = before ++ str_int f ++ after.
Proof.
  intros -> F. induction parts as [|g parts IH] using rev_ind; [contradiction|]. rewrite map_app, fold_right_app. cbn [map fold_right]. clear IH. assert (X : forall l z, exists x, fold_right append z (map str_int l) = x ++ z).
  { induction l as [|a l IH]; intro z; cbn [map fold_right]; [exists ""; reflexivity|]. destruct (IH z) as [x ->]. exists (str_int a ++ x). apply eq_sym, append_assoc. }
  apply in_split in F as (l1 & l2 & E). assert (Y : fold_right append (str_int g ++ "") (map str_int parts) = fold_right append "" (map str_int (parts ++ [g]))) by (rewrite map_app, fold_right_app; reflexivity). rewrite Y, E, map_app, fold_right_app. cbn [map fold_right]. destruct (X l1 (str_int f ++ fold_right append "" (map str_int l2))) as [x ->]. eexists. eexists. reflexivity.
Qed.
Lemma fv_loop (l r : list vec) c : forall i, (i + length c <= length l)%nat -> (i + length c <= length r)%nat -> exists lane, from_vertices_loop l r i c = Ok lane /\ length lane = length c.
Proof.
  induction c as [|x c IH]; intros i L R; [exists []; auto|]. cbn [from_vertices_loop length] in *.
  destruct (nth_error r i) as [y|] eqn:NR; [|apply nth_error_None in NR; lia]. destruct (nth_error l i) as [z|] eqn:NL; [|apply nth_error_None in NL; lia]. apply item_nth in NR, NL. rewrite NR, NL. cbn [bind]. destruct (IH (S i)) as (lane & -> & E); [lia|lia|]. cbn [bind]. eexists. split; [reflexivity|]. cbn [length]. rewrite E. reflexivity.
Qed.
Lemma fv_defined l r c : length l = length c -> length r = length c -> exists lane, from_vertices l r c = Ok lane /\ length lane = length c.
Proof. intros L R. apply fv_loop; cbn; lia. Qed.
Lemma cos_2PI_shift x : cos (x + 2 * PI) = cos x.
Proof. rewrite <- (cos_period x 1). cbn [INR]. f_equal. ring. Qed.
