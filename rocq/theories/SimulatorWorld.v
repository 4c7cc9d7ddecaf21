(** A concrete world used by the examples of SimulatorProps: points moving on a
    line at a constant speed, goals "position at least g", bodies closer than 1
    touch. *)
From Coq Require Import QArith Qcanon ZArith List Bool Arith Lia.
From Verif Require Import Base Num SeqModel SimulatorModel SimulatorSpec.
Import ListNotations.
Open Scope Qc_scope.

Definition near (a b : Qc) : bool := qltb (qabs (a - b)) 1.
Fixpoint hits (n : nat) (obs : list Qc) (f : Qc) : list nat :=
  match obs with [] => [] | o :: r => (if near o f then [n] else []) ++ hits (S n) r f end.

Definition line : world := {|
  w_X := Qc; w_U := Qc; w_M := Qc; w_A := Qc; w_G := Qc; w_S := unit; w_F := Qc; w_O := Qc;
  w_E := nat; w_I := Qc; w_D := unit; w_scen := list Qc;
  get_state := fun m => m; footprint := fun m => m; intersects := near; is_dyn := fun _ => false;
  model_step := fun m u d => Ok (m + u * d);
  agent_init := fun a _ _ _ _ _ => Ok a;
  agent_cmds := fun a _ => Ok (a, a);
  agent_extra := fun a => Ok (a, Some 7%nat);
  goal_done := fun g x _ => Ok (qleb g x);
  sense := fun f _ o _ => Ok (f, o);
  id_filter := tt; cpu_time := fun _ _ => 0;
  env_query := fun sc f => hits 0 sc f; obstacles := fun sc => sc;
  resolve := fun _ p q t a b => ((a, b), Ok (Some (mkRep [p; q] t (Some tt))));
  resolve_env := fun p _ t m => (m, Ok (Some (mkRep [p] t (Some tt)))) |}.

(** Player 1 (from 0, speed 1) has goal 1; player 2 (from 4, speed -1) has no
    mission; player 3 (from 5, speed -3/2) has an unreachable goal; one obstacle
    at 2; dt 1/2, commands every 1, limit 3. *)
Definition ctx1 : ctx line := @mkCtx line
  (@mkConfig line [qz 2] (mkParam (qf 1 2) (qz 1) (qz 3) (qz 10)) [(1%nat, qz 1); (3%nat, qz 100)] true 0%nat)
  [(1%nat, qz 0); (2%nat, qz 4); (3%nat, qz 5)] [(1%nat, qz 1); (2%nat, qz (-1)); (3%nat, qf (-3) 2)]
  [] [] 0 false [] None.
(** A second context with another player. *)
Definition ctx2 : ctx line := @mkCtx line
  (@mkConfig line [] (mkParam (qf 1 2) (qz 1) (qz 3) (qz 10)) [] true 0%nat)
  [(8%nat, qz 0)] [(8%nat, qz 1)] [] [] 0 false [] None.

Definition start1 : st line :=
  match init_run ctx1 new_simulator with Ok s => s | Err _ => mkSt ctx1 new_simulator [] end.
Fixpoint nth_st {W : world} (s0 : st W) (k : nat) : st W :=
  match k with O => s0 | S k' => match step (nth_st s0 k') with Ok s => s | Err _ => nth_st s0 k' end end.

Lemma nth_st_after {W : world} (s0 : st W) k :
  forallb (fun i => negb (c_term (cx (nth_st s0 i))) && match step (nth_st s0 i) with Ok _ => true | Err _ => false end) (List.seq 0 k) = true ->
  after s0 k (nth_st s0 k).
Proof.
  induction k as [|k IH]; intro H; [constructor|].
  rewrite seq_S, forallb_app in H. apply andb_true_iff in H as [H1 H2]. cbn [forallb Nat.add] in H2.
  rewrite andb_true_r in H2. apply andb_true_iff in H2 as [H2 H3]. apply negb_true_iff in H2.
  econstructor; [apply IH; exact H1|exact H2|]. cbn [nth_st]. destruct (step (nth_st s0 k)); [reflexivity|discriminate].
Qed.

Lemma started1 : started ctx1 start1.
Proof.
  split.
  - split; [vm_compute; reflexivity|]. repeat split; cbn; repeat constructor; cbn; intuition congruence.
  - exists new_simulator. split; [reflexivity|]. unfold start1.
    assert (H : match init_run ctx1 new_simulator with Ok _ => true | Err _ => false end = true) by (vm_compute; reflexivity).
    destruct (init_run ctx1 new_simulator); [reflexivity|discriminate].
Qed.
Lemma dt1 : 0 < dt (g_param (c_cfg ctx1)).
Proof. vm_compute. reflexivity. Qed.
Lemma after1 k : (k <= 7)%nat -> after start1 k (nth_st start1 k).
Proof.
  intro H. apply nth_st_after. apply forallb_forall. intros i Hi. apply in_seq in Hi.
  assert (G : forallb (fun i => negb (c_term (cx (nth_st start1 i))) && match step (nth_st start1 i) with Ok _ => true | Err _ => false end)
     (List.seq 0 7) = true) by (vm_compute; reflexivity).
  rewrite forallb_forall in G. apply G. apply in_seq. lia.
Qed.

(** Reading facts off a computed run. *)
Lemma get_ok {A} (P : A -> bool) (r : option (result A)) :
  match r with Some (Ok s) => P s | _ => false end = true -> exists s, r = Some (Ok s) /\ P s = true.
Proof. destruct r as [[s|]|]; try discriminate. eauto. Qed.
Lemma get_keyerror {A} (r : option (result A)) :
  match r with Some (Err PyKeyError) => true | _ => false end = true -> r = Some (Err PyKeyError).
Proof. destruct r as [[s|[]]|]; try discriminate. reflexivity. Qed.
Lemma get_running {A} (r : option A) : match r with None => true | _ => false end = true -> r = None.
Proof. destruct r; [discriminate|reflexivity]. Qed.
Lemma get_some {A} (P : A -> bool) (r : option A) :
  match r with Some s => P s | _ => false end = true -> exists s, r = Some s /\ P s = true.
Proof. destruct r as [s|]; try discriminate. eauto. Qed.
Fixpoint qs_eqb (l : list Qc) (m : list Q) : bool :=
  match l, m with
  | [], [] => true
  | a :: l', b :: m' => qeqb a (Q2Qc b) && qs_eqb l' m'
  | _, _ => false
  end.
Lemma qs_eqb_eq l m : qs_eqb l m = true -> l = map Q2Qc m.
Proof.
  revert m; induction l as [|a l IH]; intros [|b m]; cbn; try discriminate; [reflexivity|].
  rewrite andb_true_iff, qeqb_eq. intros [-> H]. f_equal. apply IH; exact H.
Qed.
Definition dueb {W : world} (s : st W) (p : player) : bool :=
  match rev (asks s p) with [] => true | a :: _ => qleb (dt_commands (param s)) (time s - ask_t a) end.
Lemma dueb_spec {W : world} (s : st W) p : dueb s p = true <-> due s p.
Proof.
  unfold dueb, due. rewrite <- (rev_involutive (asks s p)). destruct (rev (asks s p)) as [|a r] eqn:E; rewrite ?rev_involutive; cbn [rev].
  - split; auto.
  - rewrite qleb_le. split.
    + intro H. right. exists (rev r), a. auto.
    + intros [H|(pre & b & H & L)]; [destruct (rev r); discriminate|]. apply app_inj_tail in H as [_ ->]. exact L.
Qed.
Definition nats_eqb (l m : list nat) : bool := if list_eq_dec Nat.eq_dec l m then true else false.
Lemma nats_eqb_eq l m : nats_eqb l m = true -> l = m.
Proof. unfold nats_eqb. destruct (list_eq_dec Nat.eq_dec l m); [auto|discriminate]. Qed.
Lemma near_sym a b : near a b = near b a.
Proof.
  unfold near. f_equal. unfold qabs. destruct (qltb_spec (a - b) 0), (qltb_spec (b - a) 0); try ring; qlra.
Qed.
