(** Properties of motion primitives and of the commands sampler. *)
From Coq Require Import QArith Qcanon ZArith List Bool Arith Lia Sorted.
From Verif Require Import Base Num SeqModel SeqSpec SeqProofs SeqProofs2 VehState TrajModel TrajSpec TrajProofs PlanModel PlanSpec PlanProofs.
Import ListNotations.
Open Scope Qc_scope.
(* BODY *)

(** ** C18 *)

(** The result of generate is exactly the set of drives from an admissible start
    to a grid target whose one constant command is inside the limits. *)
Theorem C18_primitives_are_the_feasible_drives : forall p vp f x0 mps, 0 < gp_dt p -> (1 <= gp_steps p)%Z ->
  mp_generate p vp f x0 = Ok mps ->
  (forall t, In t mps -> exists s v1 d1 c, start_state p x0 s /\ on_grid (gp_a p) v1 /\ on_grid (gp_b p) d1 /\
     vc_acc c * (gp_dt p * qz (gp_steps p)) = v1 - vs_vx s /\
     vc_ddelta c * (gp_dt p * qz (gp_steps p)) = d1 - vs_delta s /\
     in_limits vp c /\ drives f c (gp_dt p) (Z.to_nat (gp_steps p)) s t) /\
  (forall s v1 d1 c, start_state p x0 s -> on_grid (gp_a p) v1 -> on_grid (gp_b p) d1 ->
     vc_acc c * (gp_dt p * qz (gp_steps p)) = v1 - vs_vx s ->
     vc_ddelta c * (gp_dt p * qz (gp_steps p)) = d1 - vs_delta s ->
     in_limits vp c -> exists t, In t mps /\ drives f c (gp_dt p) (Z.to_nat (gp_steps p)) s t).
Proof.
  intros p vp f x0 mps P Hn H.
  assert (Q : 0 < qz (gp_steps p)). { change 0 with (qz 0). apply qz_lt. lia. }
  assert (Hh : 0 < gp_dt p * qz (gp_steps p)) by qnra.
  assert (Hz : gp_dt p * qz (gp_steps p) <> 0) by (intro C; rewrite C in Hh; exact (Qclt_not_eq _ _ Hh eq_refl)).
  assert (Hd : gp_dt p <> 0) by (intro C; rewrite C in P; exact (Qclt_not_eq _ _ P eq_refl)).
  assert (Hq : qz (gp_steps p) <> 0) by (intro C; rewrite C in Q; exact (Qclt_not_eq _ _ Q eq_refl)).
  split.
  - intros t Ht. apply (generate_spec p vp f x0 mps P Hn H) in Ht as (_ & _ & s & v1 & d1 & c & A & B & C & Ec & D & E).
    exists s, v1, d1, c. split; [exact A|]. split; [exact B|]. split; [exact C|].
    split; [rewrite Ec; cbn [vc_acc]; field; split; assumption|]. split; [rewrite Ec; cbn [vc_ddelta]; field; split; assumption|]. split; [exact D|exact E].
  - intros s v1 d1 c A B C E1 E2 L.
    assert (Ec : c = mkVC ((v1 - vs_vx s) / (gp_dt p * qz (gp_steps p))) ((d1 - vs_delta s) / (gp_dt p * qz (gp_steps p)))).
    { destruct c as [a r]; cbn [vc_acc vc_ddelta] in *. rewrite <- E1, <- E2. f_equal; field; split; assumption. }
    destruct (generate_ok_drive p vp f x0 mps P Hn H s v1 d1 c A B C Ec L) as (t & D & Ty & W).
    exists t. split; [|exact D]. apply (generate_spec p vp f x0 mps P Hn H). split; [exact Ty|]. split; [exact W|].
    exists s, v1, d1, c. auto 8.
Qed.

(** Timestamps are 0, dt, ..., n*dt and the first state is the start. *)
Theorem C18_primitive_samples : forall p vp f x0 mps t, 0 < gp_dt p -> (1 <= gp_steps p)%Z ->
  mp_generate p vp f x0 = Ok mps -> In t mps ->
  tss t = map (fun k => qn k * gp_dt p) (List.seq 0 (S (Z.to_nat (gp_steps p)))) /\
  length (vals t) = S (Z.to_nat (gp_steps p)) /\
  (exists s, start_state p x0 s /\ nth_error (vals t) 0 = Some s) /\ obtainable t.
Proof.
  intros p vp f x0 mps t P Hn H Ht.
  apply (generate_spec p vp f x0 mps P Hn H) in Ht as (Ty & W & s & v1 & d1 & c & A & B & C & _ & D & l & E & L & I).
  pose proof (iter_fst t W) as F. pose proof (iter_snd t W) as G.
  assert (Len : length (map (fun k => qn k * gp_dt p) (List.seq 0 (S (Z.to_nat (gp_steps p))))) = length l).
  { rewrite map_length, seq_length. symmetry; exact L. }
  rewrite I in F, G. rewrite map_fst_combine in F by exact Len. rewrite map_snd_combine in G by exact Len.
  split; [symmetry; exact F|]. split; [congruence|]. split.
  - exists s. split; [exact A|]. rewrite <- G. destruct (driven_head _ _ _ _ _ E) as [r ->]. reflexivity.
  - destruct t as [ts vs ty]. cbn in Ty. subst ty. eapply ob_new with (ty := true). apply new_seq_ok; [exact (proj1 W)|exact (proj2 W)].
Qed.

(** generate only fails when the dynamics do, or on a negative sample count. *)
Theorem C18_generate_total : forall p vp f x0, 0 < gp_dt p ->
  ((0 <= snd (gp_a p))%Z -> (0 <= snd (gp_b p))%Z -> (forall s c, exists s', f s c (gp_dt p) = Ok s') ->
     exists mps, mp_generate p vp f x0 = Ok mps) /\
  ((snd (gp_a p) < 0)%Z \/ (snd (gp_b p) < 0)%Z -> mp_generate p vp f x0 = Err PyValueError).
Proof.
  intros p vp f x0 P. split; [apply generate_total; exact P|]. unfold mp_generate.
  intros [H|H].
  - rewrite (linspace3_neg _ H). reflexivity.
  - destruct (Z.ltb_spec (snd (gp_a p)) 0) as [H1|H1]; [rewrite (linspace3_neg _ H1); reflexivity|].
    destruct (linspace3_total _ H1) as (l & -> & _). rewrite (linspace3_neg _ H). reflexivity.
Qed.

Lemma bicycle_ramp T wb lr vp c dt : in_limits vp c -> 0 < dt ->
  forall n s l, driven (bicycle_step T wb lr vp) c dt s l -> length l = S n ->
  vp_vx_lo vp <= vs_vx s /\ vs_vx s <= vp_vx_hi vp /\ - vp_delta_max vp <= vs_delta s /\ vs_delta s <= vp_delta_max vp ->
  vp_vx_lo vp <= vs_vx s + qn n * dt * vc_acc c /\ vs_vx s + qn n * dt * vc_acc c <= vp_vx_hi vp /\
  - vp_delta_max vp <= vs_delta s + qn n * dt * vc_ddelta c /\ vs_delta s + qn n * dt * vc_ddelta c <= vp_delta_max vp ->
  forall k x, nth_error l k = Some x ->
    vs_vx x = vs_vx s + qn k * dt * vc_acc c /\ vs_delta x = vs_delta s + qn k * dt * vc_ddelta c.
Proof.
  intros (L1 & L2 & L3 & L4) P. induction n as [|n IH]; intros s l D Len (B1 & B2 & B3 & B4) (E1 & E2 & E3 & E4) k x Hk.
  - destruct l as [|y [|z l]]; [discriminate| |discriminate]. inversion D; subst; [|match goal with H : driven _ _ _ _ [] |- _ => inversion H end].
    destruct k as [|[|k]]; [|discriminate..]. injection Hk as <-. rewrite qn_0. split; ring.
  - destruct l as [|y [|z l]]; [discriminate|discriminate|]. inversion D as [|? s' ? St D']; subst.
    unfold bicycle_step in St. cbv zeta in St. injection St as St.
    assert (Hz : z = s') by (inversion D'; reflexivity). subst z.
    assert (Cl : forall q lo hi, lo <= q -> q <= hi -> qclip q lo hi = q).
    { intros q lo hi A B. unfold qclip, qmin, qmax. destruct (qltb q lo) eqn:X1.
      - apply qltb_lt in X1. exfalso. eapply Qclt_not_le; eassumption.
      - destruct (qltb hi q) eqn:X2; [|reflexivity]. apply qltb_lt in X2. exfalso. eapply Qclt_not_le; eassumption. }
    rewrite (Cl (vc_acc c)) in St by assumption. rewrite (Cl (vc_ddelta c)) in St by assumption.
    assert (N0 : 0 <= qn n) by apply qn_nonneg. rewrite qn_S in E1, E2, E3, E4.
    assert (M : forall a0 q lo hi, lo <= a0 -> a0 <= hi -> lo <= a0 + (qn n + 1) * dt * q -> a0 + (qn n + 1) * dt * q <= hi ->
       lo <= a0 + q * dt /\ a0 + q * dt <= hi).
    { intros a0 q lo hi A1 A2 A3 A4.
      assert (W : (qn n + 1) * dt * q = q * dt + qn n * (q * dt)) by ring. rewrite W in A3, A4.
      set (w := q * dt) in *. clearbody w. destruct (Qclt_le_dec w 0) as [Hw|Hw].
      - assert (qn n * w <= 0) by qnra. split; [qlra|qlra].
      - assert (0 <= qn n * w) by qnra. split; [qlra|qlra]. }
    destruct (M _ _ _ _ B1 B2 E1 E2) as [M1 M2]. destruct (M _ _ _ _ B3 B4 E3 E4) as [M3 M4].
    assert (V : vs_vx s' = vs_vx y + vc_acc c * dt).
    { rewrite <- St. cbn. apply Cl; assumption. }
    assert (Dl : vs_delta s' = vs_delta y + vc_ddelta c * dt).
    { rewrite <- St. cbn. apply Cl; assumption. }
    destruct k as [|k].
    + injection Hk as <-. rewrite qn_0. split; ring.
    + cbn [nth_error] in Hk. rewrite qn_S.
      destruct (IH s' (s' :: l) D' (eq_add_S _ _ Len)) with (k := k) (x := x) as [I1 I2].
      * rewrite V, Dl. auto.
      * rewrite V, Dl.
        replace (vs_vx y + vc_acc c * dt + qn n * dt * vc_acc c) with (vs_vx y + (qn n + 1) * dt * vc_acc c) by ring.
        replace (vs_delta y + vc_ddelta c * dt + qn n * dt * vc_ddelta c) with (vs_delta y + (qn n + 1) * dt * vc_ddelta c) by ring.
        auto.
      * exact Hk.
      * rewrite I1, I2, V, Dl. split; ring.
Qed.

(** With the kinematic bicycle dynamics and the ranges of
    MPGParam.from_vehicle_parameters, every primitive ends exactly at its grid
    speed and steering angle, whatever cos, sin and tan return. *)
Theorem C18_bicycle_primitives_reach_their_target : forall T wheelbase lr vp dt steps nv ns mps t,
  vparams_ok vp = true -> 0 < dt -> (1 <= steps)%Z ->
  mp_generate (mpg_from_vehicle dt steps nv ns vp) vp (bicycle_step T wheelbase lr vp) None = Ok mps -> In t mps ->
  exists v1 d1 x, on_grid (vp_vx_lo vp, vp_vx_hi vp, nv) v1 /\
    on_grid (- vp_delta_max vp, vp_delta_max vp, ns) d1 /\
    last_of (vals t) = Some x /\ vs_vx x = v1 /\ vs_delta x = d1.
Proof.
  intros T wb lr vp dt steps nv ns mps t Ok P Hn H Ht. set (p := mpg_from_vehicle dt steps nv ns vp) in *.
  assert (Pp : 0 < gp_dt p) by exact P. assert (Hp : (1 <= gp_steps p)%Z) by exact Hn.
  apply (generate_spec p vp _ None mps Pp Hp H) in Ht as (Ty & W & s & v1 & d1 & c & A & B & C & Ec & D & l & E & L & I).
  cbn in A. destruct A as (_ & _ & _ & A1 & A2).
  unfold vparams_ok in Ok. rewrite !andb_true_iff, !qltb_lt in Ok. destruct Ok as (((O1 & O2) & O3) & O4).
  assert (R1 : rlo (gp_a p) <= rhi (gp_a p)) by (apply Qclt_le_weak; exact O1).
  assert (R2 : rlo (gp_b p) <= rhi (gp_b p)) by (cbn; qlra).
  pose proof (grid_bounds _ _ R1 A1) as [X1 X2]. pose proof (grid_bounds _ _ R2 A2) as [X3 X4].
  pose proof (grid_bounds _ _ R1 B) as [Y1 Y2]. pose proof (grid_bounds _ _ R2 C) as [Y3 Y4].
  cbn [rlo rhi fst snd gp_a gp_b p mpg_from_vehicle] in X1, X2, X3, X4, Y1, Y2, Y3, Y4.
  pose proof (iter_snd t W) as G. rewrite I in G. rewrite map_snd_combine in G.
  2: { rewrite map_length, seq_length. symmetry; exact L. }
  assert (Q : 0 < qz steps). { change 0 with (qz 0). apply qz_lt. lia. }
  assert (Hd : dt <> 0) by (intro Z; rewrite Z in P; exact (Qclt_not_eq _ _ P eq_refl)).
  assert (Hq : qz steps <> 0) by (intro Z; rewrite Z in Q; exact (Qclt_not_eq _ _ Q eq_refl)).
  assert (Qn : qn (Z.to_nat steps) = qz steps) by (unfold qn; rewrite Z2Nat.id by lia; reflexivity).
  assert (F1 : vs_vx s + qn (Z.to_nat steps) * dt * vc_acc c = v1).
  { rewrite Qn, Ec. cbn [vc_acc vc_ddelta gp_dt gp_steps p mpg_from_vehicle]. field. split; assumption. }
  assert (F2 : vs_delta s + qn (Z.to_nat steps) * dt * vc_ddelta c = d1).
  { rewrite Qn, Ec. cbn [vc_acc vc_ddelta gp_dt gp_steps p mpg_from_vehicle]. field. split; assumption. }
  destruct (last_of_some l) as [x Hx]; [destruct l; [discriminate|discriminate]|].
  unfold last_of in Hx. rewrite L in Hx. replace (S (Z.to_nat (gp_steps p)) - 1)%nat with (Z.to_nat steps) in Hx by (cbn; lia).
  destruct (bicycle_ramp T wb lr vp c dt D P (Z.to_nat steps) s l E L) with (k := Z.to_nat steps) (x := x) as [V1 V2].
  - auto.
  - rewrite F1, F2. auto.
  - exact Hx.
  - exists v1, d1, x. split; [exact B|]. split; [exact C|].
    split; [unfold last_of; rewrite <- G, L; replace (S (Z.to_nat (gp_steps p)) - 1)%nat with (Z.to_nat steps) by (cbn; lia); exact Hx|].
    split; [rewrite V1; exact F1|rewrite V2; exact F2].
Qed.

(** Every generated grid value lies inside its range. *)
Theorem C18_grid_inside_range : forall r x, rlo r <= rhi r -> on_grid r x -> rlo r <= x /\ x <= rhi r.
Proof. exact grid_bounds. Qed.

Example C18_ex : rmap (fun l => map (fun t => map (fun s => (vs_vx s, vs_delta s)) (vals t)) l)
    (mp_generate (mkGP 1 2 (0, qz 4, 3%Z) (0, 0, 1%Z)) vp_car (fun s c dt => Ok (vs_add s (mkVS 0 0 0 (vc_acc c * dt) (vc_ddelta c * dt)))) (Some (mkVS 0 0 0 (qz 1) 0)))
  = Ok [[(qz 1, 0); (qf 1 2, 0); (0, 0)]; [(qz 1, 0); (qf 3 2, 0); (qz 2, 0)]; [(qz 1, 0); (qf 5 2, 0); (qz 4, 0)]].
Proof. qcompute. Qed.

Example C18_ex2 : rmap (@length _) (mp_generate (mpg_from_vehicle 1 2 3 2 vp_car) vp_car
    (bicycle_step (mkTrig (fun x => x) (fun x => x) (fun x => x)) (qz 3) 1 vp_car) None) = Ok 6%nat /\ vparams_ok vp_car = true.
Proof. split; vm_compute; reflexivity. Qed.

(** ** C19 *)

(** A sampler exists only with ranges inside the vehicle's limits; a rejected
    update leaves the ranges unchanged. *)
Theorem C19_sampler_ranges_inside_limits : forall p f vp,
  (forall s, new_sampler p f vp = Ok s -> sa_vp s = vp /\ sa_param s = p) /\
  ((exists s, new_sampler p f vp = Ok s) <->
     vp_acc_lo vp <= rlo (gp_a p) /\ rlo (gp_a p) <= rhi (gp_a p) /\ rhi (gp_a p) <= vp_acc_hi vp /\
     - vp_ddelta_max vp <= rlo (gp_b p) /\ rlo (gp_b p) <= rhi (gp_b p) /\ rhi (gp_b p) <= vp_ddelta_max vp) /\
  (forall s p' s', new_sampler p f vp = Ok s -> update_params s p' = Ok s' ->
     new_sampler p' f vp = Ok s').
Proof.
  intros p f vp. unfold new_sampler, update_params.
  assert (K : forall p, params_ok vp p = true <->
    vp_acc_lo vp <= rlo (gp_a p) /\ rlo (gp_a p) <= rhi (gp_a p) /\ rhi (gp_a p) <= vp_acc_hi vp /\
     - vp_ddelta_max vp <= rlo (gp_b p) /\ rlo (gp_b p) <= rhi (gp_b p) /\ rhi (gp_b p) <= vp_ddelta_max vp).
  { intro q. unfold params_ok. rewrite !andb_true_iff, !qleb_le. tauto. }
  split; [|split].
  - intros s. destruct (params_ok vp p); [|discriminate]. intros [= <-]. split; reflexivity.
  - rewrite <- K. destruct (params_ok vp p); split; eauto; [intros [s C]; discriminate|discriminate].
  - intros s p' s'. destruct (params_ok vp p); [|discriminate]. intros [= <-]. cbn [sa_vp sa_dyn]. auto.
Qed.

(** generate returns one one-step trajectory per grid pair, in grid order, from
    the given state; every command used is inside the vehicle's limits. *)
Theorem C19_one_trajectory_per_grid_pair : forall p f vp s x0 trs, new_sampler p f vp = Ok s -> 0 < gp_dt p ->
  cs_generate s x0 = Ok trs ->
  length trs = (Z.to_nat (snd (gp_a p)) * Z.to_nat (snd (gp_b p)))%nat /\
  (forall t, In t trs -> exists c x1, on_grid (gp_a p) (vc_acc c) /\ on_grid (gp_b p) (vc_ddelta c) /\ in_limits vp c /\
     f x0 c (gp_dt p) = Ok x1 /\ iter t = [(0, x0); (gp_dt p, x1)]) /\
  (forall c, on_grid (gp_a p) (vc_acc c) -> on_grid (gp_b p) (vc_ddelta c) ->
     exists t x1, In t trs /\ f x0 c (gp_dt p) = Ok x1 /\ iter t = [(0, x0); (gp_dt p, x1)]).
Proof.
  intros p f vp s x0 trs Ns P H. unfold new_sampler in Ns. destruct (params_ok vp p) eqn:Pk; [|discriminate].
  injection Ns as <-. unfold cs_generate in H. cbn [sa_param] in H.
  unfold params_ok in Pk. rewrite !andb_true_iff, !qleb_le in Pk. destruct Pk as (((K1 & K2) & K3) & ((K4 & K5) & K6)).
  destruct (linspace3 (gp_a p)) as [as_|] eqn:Ea; [|discriminate]. destruct (linspace3 (gp_b p)) as [bs|] eqn:Eb; [|discriminate].
  assert (Ga : forall x, In x as_ <-> on_grid (gp_a p) x) by (intro x; apply linspace3_in; exact Ea).
  assert (Gb : forall x, In x bs <-> on_grid (gp_b p) x) by (intro x; apply linspace3_in; exact Eb).
  assert (La : length as_ = Z.to_nat (snd (gp_a p))).
  { destruct (Z.ltb_spec (snd (gp_a p)) 0) as [H1|H1]; [rewrite (linspace3_neg _ H1) in Ea; discriminate|].
    destruct (linspace3_total _ H1) as (l & El & Ll). congruence. }
  assert (Lb : length bs = Z.to_nat (snd (gp_b p))).
  { destruct (Z.ltb_spec (snd (gp_b p)) 0) as [H1|H1]; [rewrite (linspace3_neg _ H1) in Eb; discriminate|].
    destruct (linspace3_total _ H1) as (l & El & Ll). congruence. }
  assert (S1 : forall a b t, sample1 (mkSampler vp f p) x0 (a, b) = Ok t ->
     exists x1, f x0 (mkVC a b) (gp_dt p) = Ok x1 /\ iter t = [(0, x0); (gp_dt p, x1)]).
  { intros a b t E. unfold sample1 in E. cbn [sa_dyn sa_param fst snd] in E.
    destruct (f x0 (mkVC a b) (gp_dt p)) as [x1|]; [|discriminate]. apply new_seq_inv in E as (_ & _ & ->).
    exists x1. split; reflexivity. }
  split; [|split].
  - rewrite (rmapM_length _ _ _ H), prod_length, La, Lb. reflexivity.
  - intros t Ht. apply (rmapM_in _ _ _ H) in Ht as ([a b] & Hab & E). apply in_prod_iff in Hab as [Ha Hb].
    apply Ga in Ha. apply Gb in Hb. destruct (S1 _ _ _ E) as (x1 & F & I). exists (mkVC a b), x1.
    pose proof (grid_bounds _ _ K2 Ha) as [U1 U2]. pose proof (grid_bounds _ _ K5 Hb) as [U3 U4].
    split; [exact Ha|]. split; [exact Hb|]. split; [|split; assumption].
    unfold in_limits; cbn. split; [eapply Qcle_trans; eassumption|]. split; [eapply Qcle_trans; eassumption|].
    split; eapply Qcle_trans; eassumption.
  - intros [a b] Ha Hb. cbn in Ha, Hb. apply Ga in Ha. apply Gb in Hb.
    assert (Hin : In (a, b) (list_prod as_ bs)) by (apply in_prod_iff; auto).
    assert (X : exists t, sample1 (mkSampler vp f p) x0 (a, b) = Ok t).
    { clear -H Hin. revert trs H Hin. induction (list_prod as_ bs) as [|z l IH]; intros trs H Hin; [destruct Hin|].
      cbn in H. destruct (sample1 _ _ z) as [y|] eqn:E; [|discriminate]. destruct (rmapM _ l) as [ys|]; [|discriminate].
      destruct Hin as [->|Hin]; [eauto|]. eapply IH; [reflexivity|exact Hin]. }
    destruct X as [t E]. destruct (S1 _ _ _ E) as (x1 & F & I). exists t, x1. split; [|split; assumption].
    apply (rmapM_in _ _ _ H). eauto.
Qed.

(** generate succeeds whenever the dynamics do; with a non-positive time step it
    raises ValueError as soon as the grid is not empty. *)
Theorem C19_generate_total : forall p f vp s x0, new_sampler p f vp = Ok s ->
  (0 <= snd (gp_a p))%Z -> (0 <= snd (gp_b p))%Z -> (forall c, exists x1, f x0 c (gp_dt p) = Ok x1) ->
  (0 < gp_dt p -> exists trs, cs_generate s x0 = Ok trs) /\
  (gp_dt p <= 0 -> (1 <= snd (gp_a p))%Z -> (1 <= snd (gp_b p))%Z -> cs_generate s x0 = Err ZValueError).
Proof.
  intros p f vp s x0 Ns Ha Hb Hf. unfold new_sampler in Ns. destruct (params_ok vp p); [|discriminate].
  injection Ns as <-. unfold cs_generate. cbn [sa_param].
  destruct (linspace3_total _ Ha) as (as_ & -> & La). destruct (linspace3_total _ Hb) as (bs & -> & Lb). split.
  - intro P. apply rmapM_total. intros [a b] _. unfold sample1. cbn [sa_dyn sa_param fst snd].
    destruct (Hf (mkVC a b)) as [x1 ->]. eexists. apply new_seq_ok; [reflexivity|].
    constructor; [constructor; constructor|]. constructor; [exact P|constructor].
  - intros P H1 H2. destruct as_ as [|a as_]; [cbn in La; lia|]. destruct bs as [|b bs]; [cbn in Lb; lia|].
    cbn [list_prod map app rmapM]. unfold sample1 at 1. cbn [sa_dyn sa_param fst snd].
    destruct (Hf (mkVC a b)) as [x1 ->].
    destruct (new_traj [0; gp_dt p] [x0; x1]) as [t|e] eqn:N.
    + apply new_seq_inv in N as (_ & I & _). inversion I as [|? ? _ F]; subst. inversion F; subst.
      exfalso. eapply Qclt_not_le; eassumption.
    + apply new_seq_err in N. subst e. reflexivity.
Qed.

(** Building a sampler from a vehicle's own parameters: the code uses the speed
    and steering-angle ranges as acceleration and steering-rate ranges. *)
Theorem C19_from_vehicle_parameters : forall dt na nr vp f, vparams_ok vp = true ->
  (forall steps, steps <> 1%Z -> sampler_from_vehicle dt steps na nr vp = Err PyAssertionError) /\
  exists p, sampler_from_vehicle dt 1 na nr vp = Ok p /\ gp_dt p = dt /\
    gp_a p = (vp_vx_lo vp, vp_vx_hi vp, na) /\ gp_b p = (- vp_delta_max vp, vp_delta_max vp, nr) /\
    ((exists s, new_sampler p f vp = Ok s) <->
       vp_acc_lo vp <= vp_vx_lo vp /\ vp_vx_hi vp <= vp_acc_hi vp /\ vp_delta_max vp <= vp_ddelta_max vp).
Proof.
  intros dt na nr vp f Hok. split.
  - intros steps Hs. unfold sampler_from_vehicle, sampler_param. cbn. apply Z.eqb_neq in Hs. rewrite Hs. reflexivity.
  - eexists. do 4 (split; [reflexivity|]). rewrite (proj1 (proj2 (C19_sampler_ranges_inside_limits _ f vp))).
    cbn. unfold rlo, rhi; cbn. unfold vparams_ok in Hok. rewrite !andb_true_iff, !qltb_lt in Hok.
    destruct Hok as (((O1 & O2) & O3) & O4). split.
    + intros (A & B & C & D & E & F). auto.
    + intros (A & B & C). split; [exact A|]. split; [apply Qclt_le_weak; exact O1|]. split; [exact B|].
      split; [qlra|]. split; [qlra|exact C].
Qed.

(** So "from_vehicle_parameters" parameters are rejected for the default car,
    truck and bicycle. *)
Theorem C19_from_vehicle_refuted : forall dt na nr f vp, In vp [vp_car; vp_truck; vp_bicycle] ->
  vparams_ok vp = true /\
  exists p, sampler_from_vehicle dt 1 na nr vp = Ok p /\ new_sampler p f vp = Err PyAssertionError.
Proof.
  intros dt na nr f vp H. assert (K : vparams_ok vp = true).
  { destruct H as [<-|[<-|[<-|[]]]]; vm_compute; reflexivity. }
  split; [exact K|]. destruct (C19_from_vehicle_parameters dt na nr vp f K) as (_ & p & E & _ & _ & _ & I). exists p. split; [exact E|].
  unfold new_sampler in *. destruct (params_ok vp p) eqn:Q; [|reflexivity].
  exfalso. destruct (proj1 I (ex_intro _ _ eq_refl)) as (_ & A & _). apply qleb_le in A.
  destruct H as [<-|[<-|[<-|[]]]]; vm_compute in A; discriminate.
Qed.

Example C19_ex : rmap (fun s => rmap (map (@iter _)) (cs_generate s (mkVS 0 0 0 (qz 1) 0)))
    (new_sampler (mkGP (qf 1 2) 1 (qz (-2), qz 2, 2%Z) (0, qf 1 2, 1%Z))
       (fun s c dt => Ok (vs_add s (mkVS 0 0 0 (vc_acc c * dt) (vc_ddelta c * dt)))) vp_car) =
  Ok (Ok [[(0, mkVS 0 0 0 (qz 1) 0); (qf 1 2, mkVS 0 0 0 0 0)]; [(0, mkVS 0 0 0 (qz 1) 0); (qf 1 2, mkVS 0 0 0 (qz 2) 0)]]).
Proof. qcompute. Qed.
