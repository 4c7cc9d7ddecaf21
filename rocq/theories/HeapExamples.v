(** Concrete worlds for the theorems on objects and references. *)
From Coq Require Import QArith Qcanon List Bool Arith Lia.
From Verif Require Import Base Num SeqModel SimulatorModel HeapModel HeapSpec.
Import ListNotations.
Open Scope nat_scope.

(** Players on a line.  Agents (role, turn): role 0 writes 100 into every state
    it is shown; role 1 keeps commands object 0 and sets it to the number of its
    turn; others return the new command 1. *)
Definition ex_agent (a : nat * nat) (o : simobs nat Qc) (m : memory Qc Qc)
  : result ((nat * nat) * list (instr Qc Qc) * cmd_ret Qc) :=
  let '(role, n) := a in
  match role with
  | 0 => Ok ((role, S n), map (fun e => IWriteX (fst (snd e)) (qz 100)) (o_players o), RNew (qz 1))
  | 1 => Ok ((role, S n), [IWriteU 0 (qz (Z.of_nat (S n)))], ROld 0)
  | _ => Ok ((role, S n), [], RNew (qz 1))
  end.
Definition ex_world : hworld :=
  mkHW Qc Qc unit (nat * nat) unit unit Qc unit unit unit unit unit
    fst (fun a b => qleb a b && qleb b a) (fun _ => false)
    (fun xb u dt => Ok ((fst xb + u * dt)%Qc, tt))
    (fun a _ _ _ _ _ => Ok a)
    ex_agent
    (fun a _ => Ok (a, [], None))
    (fun _ _ _ => Ok false)
    (fun f _ o _ _ => Ok (f, o)) tt (fun _ _ => tt) (fun _ _ => []) (fun _ => [])
    (fun _ p q t a b => (((fst a - qz 10)%Qc, tt), ((fst b + qz 10)%Qc, tt), Ok (Some (mkRep [p; q] t (Some tt)))))
    (fun _ _ _ a => (a, Ok None)).
Definition ex_cfg : hconfig ex_world := @mkHCfg ex_world tt (mkParam (qz 1) (qz 1) (qz 3) (qz 9)) [] true 0.

Definition start (players : list (nat * (nat * nat))) : hst ex_world :=
  @mkHst ex_world (mkMem (fun _ => qz 0) 1 (fun _ => qz 0) 1 [])
    (map (fun p => (fst p, (0, tt))) players) players [] [] 0%Qc false [] None (mkObs [] 0%Qc) None [] [].
Definition shared_start : hst ex_world := start [(0, (0, 0)); (1, (1, 0))].
Definition alone_start : hst ex_world := start [(1, (1, 0))].

Definition ok_of (r : result (hst ex_world)) : hst ex_world := match r with Ok s => s | Err _ => alone_start end.
Definition after_init (s : hst ex_world) : hst ex_world := ok_of (h_init_run ex_cfg s).
Definition end_of (s : hst ex_world) : hst ex_world :=
  match h_run ex_cfg 9 s with Some r => ok_of r | None => s end.
Definition log_of (s : hst ex_world) (p : player) : hplog ex_world :=
  match dget (t_log s) p with Some l => l | None => @mkHLog ex_world (mkSeq [] [] true) (mkSeq [] [] true) (mkSeq [] [] true) (mkSeq [] [] true) end.

Lemma shared_start_ok : about_to_run shared_start.
Proof.
  split; [repeat constructor; cbn; intuition discriminate|]. split; [repeat constructor; cbn; intuition discriminate|].
  split; [intro p; reflexivity|]. split.
  { intros p r b E. assert (r = 0) as ->. { cbn in E. destruct p as [|[|p]]; [| |discriminate]; injection E as <- _; reflexivity. } split; [exact (Nat.lt_0_succ 0)|intros []]. }
  split; [intros r []|]. repeat split.
Qed.
Lemma alone_start_ok : about_to_run alone_start.
Proof.
  split; [repeat constructor; cbn; intuition discriminate|]. split; [repeat constructor; cbn; intuition discriminate|].
  split; [intro p; reflexivity|]. split.
  { intros p r b E. assert (r = 0) as ->. { cbn in E. destruct p as [|[|p]]; try discriminate; injection E as <- _; reflexivity. } split; [exact (Nat.lt_0_succ 0)|intros []]. }
  split; [intros r []|]. repeat split.
Qed.

Definition is_ok (r : option (result (hst ex_world))) : bool := match r with Some (Ok _) => true | _ => false end.
Lemma ok_run s : is_ok (h_run ex_cfg 9 s) = true -> h_run ex_cfg 9 s = Some (Ok (end_of s)).
Proof. unfold end_of. destruct (h_run ex_cfg 9 s) as [[s'|]|]; intro E; try discriminate E. reflexivity. Qed.
Lemma shared_run : h_run ex_cfg 9 shared_start = Some (Ok (end_of shared_start)).
Proof. apply ok_run. vm_compute. reflexivity. Qed.
Lemma alone_run : h_run ex_cfg 9 alone_start = Some (Ok (end_of alone_start)).
Proof. apply ok_run. vm_compute. reflexivity. Qed.

Definition is_ok1 (r : result (hst ex_world)) : bool := match r with Ok _ => true | _ => false end.
Lemma ok_of_eq r : is_ok1 r = true -> r = Ok (ok_of r).
Proof. destruct r; [reflexivity|discriminate]. Qed.
Lemma shared_init : h_init_run ex_cfg shared_start = Ok (after_init shared_start).
Proof. apply ok_of_eq. vm_compute. reflexivity. Qed.
Definition shared_seen : hst ex_world := ok_of (h_pre_update ex_cfg (after_init shared_start)).
Lemma shared_pre : h_pre_update ex_cfg (after_init shared_start) = Ok shared_seen.
Proof. apply ok_of_eq. vm_compute. reflexivity. Qed.
Definition shared_next : hst ex_world := ok_of (h_update ex_cfg shared_seen).
Lemma shared_update : h_update ex_cfg shared_seen = Ok shared_next.
Proof. apply ok_of_eq. vm_compute. reflexivity. Qed.
Definition shared_half : hst ex_world := ok_of (h_update_player ex_cfg (t_time shared_seen) shared_seen 0).
Lemma shared_turn : h_update_player ex_cfg (t_time shared_seen) shared_seen 0 = Ok shared_half.
Proof. apply ok_of_eq. vm_compute. reflexivity. Qed.
Definition has_log (s : hst ex_world) (p : player) : bool := match dget (t_log s) p with Some _ => true | None => false end.
Lemma log_of_eq s p : has_log s p = true -> dget (t_log s) p = Some (log_of s p).
Proof. unfold has_log, log_of. destruct (dget (t_log s) p); [reflexivity|discriminate]. Qed.

Fixpoint same_log (a b : list (Qc * Qc)) : bool :=
  match a, b with
  | [], [] => true
  | (t, x) :: a, (t', x') :: b => Qeq_bool t t' && Qeq_bool x x' && same_log a b
  | _, _ => false
  end.
Lemma same_log_eq a : forall b, same_log a b = true -> a = b.
Proof.
  induction a as [|[t x] a IH]; intros [|[t' x'] b] E; try discriminate E; [reflexivity|]. cbn in E.
  apply andb_prop in E as [E E3]. apply andb_prop in E as [E1 E2]. apply Qeq_bool_eq in E1, E2.
  rewrite (Qc_is_canon _ _ E1), (Qc_is_canon _ _ E2), (IH b E3). reflexivity.
Qed.
Lemma shared_log : read_states (end_of shared_start) (log_of (end_of shared_start) 1) =
  [(qz 0, qz 0); (qz 1, qz 11); (qz 2, qz 13); (qz 3, qz 16)].
Proof. apply same_log_eq. vm_compute. reflexivity. Qed.
Lemma alone_states : read_states (end_of alone_start) (log_of (end_of alone_start) 1) =
  [(qz 0, qz 0); (qz 1, qz 1); (qz 2, qz 3); (qz 3, qz 6)].
Proof. apply same_log_eq. vm_compute. reflexivity. Qed.
Lemma alone_commands : read_commands (end_of alone_start) (log_of (end_of alone_start) 1) =
  [(qz 0, qz 4); (qz 1, qz 4); (qz 2, qz 4); (qz 3, qz 4)].
Proof. apply same_log_eq. vm_compute. reflexivity. Qed.
Definition same_opt (a : option Qc) (x : Qc) : bool := match a with Some y => Qeq_bool y x | None => false end.
Lemma shared_moved : state_of shared_next 1 = Some (qz 1).
Proof.
  assert (E : same_opt (state_of shared_next 1) (qz 1) = true) by (vm_compute; reflexivity).
  unfold same_opt in E. destruct (state_of shared_next 1) as [x|]; [|discriminate E].
  apply Qeq_bool_eq in E. rewrite (Qc_is_canon _ _ E). reflexivity.
Qed.
Lemma shared_kept : m_x (t_mem (end_of shared_start)) 0 = qz 0.
Proof. apply Qc_is_canon. vm_compute. reflexivity. Qed.
Lemma shown_ref : map (fun e => (fst e, fst (snd e))) (o_players (t_obs shared_half)) = [(0, 1); (1, 2)].
Proof. vm_compute. reflexivity. Qed.
Lemma shown_changed : m_x (t_mem shared_half) 1 <> qz 0.
Proof. intro E. apply (f_equal this) in E. vm_compute in E. discriminate E. Qed.

(** Agents that write to nothing: even players return a new command, the others
    the commands object they were made with. *)
Definition polite_agent (a : nat) (o : simobs nat Qc) (m : memory Qc Qc)
  : result (nat * list (instr Qc Qc) * cmd_ret Qc) :=
  match dget (o_players o) a with
  | None => Err PyKeyError
  | Some (r, _) => if Nat.even a then Ok (a, [INew (qz 7)], RNew (m_x m r + qz 1)%Qc) else Ok (a, [], ROld 0)
  end.
Definition polite_world : hworld :=
  mkHW Qc Qc unit nat unit unit Qc unit unit unit unit unit
    fst (fun a b => qleb a b && qleb b a) (fun _ => false)
    (fun xb u dt => Ok ((fst xb + u * dt)%Qc, tt))
    (fun a p _ _ _ _ => Ok p)
    polite_agent
    (fun a _ => Ok (a, [], Some tt))
    (fun _ x _ => Ok (qleb (qz 9) x))
    (fun f _ o _ _ => Ok (f, o)) tt (fun _ _ => tt) (fun _ _ => []) (fun _ => [])
    (fun _ p q t a b => (((fst a - qz 10)%Qc, tt), ((fst b + qz 10)%Qc, tt), Ok (Some (mkRep [p; q] t (Some tt)))))
    (fun _ _ _ a => (a, Ok None)).
Definition polite_cmds (a : nat) (o : simobs Qc Qc) : result (nat * Qc) :=
  match dget (o_players o) a with
  | None => Err PyKeyError
  | Some (x, _) => Ok (a, if Nat.even a then (x + qz 1)%Qc else qz 2)
  end.
Definition polite_extra (a : nat) : result (nat * option unit) := Ok (a, Some tt).
Definition polite_sense (f : unit) (_ : unit) (o : simobs Qc Qc) (_ : player) : result (unit * simobs Qc Qc) := Ok (f, o).
Definition polite_cfg : hconfig polite_world := @mkHCfg polite_world tt (mkParam (qz 1) (qz 1) (qz 3) (qz 9)) [(0, tt)] true 0.
Definition polite_start : hst polite_world :=
  @mkHst polite_world (mkMem (fun _ => qz 0) 1 (fun _ => qz 2) 1 [])
    [(0, (0, tt)); (1, (0, tt))] [(0, 0); (1, 0)] [] [] 0%Qc false [] None (mkObs [] 0%Qc) None [] [].
Lemma polite_ok : well_mannered polite_world polite_cmds polite_extra polite_sense (t_mem polite_start).
Proof.
  split; [|split].
  - intros a o m (K1 & K2 & K3 & K4). cbn in *. unfold polite_agent, polite_cmds.
    assert (E : dget (o_players (read_obs m o)) a = option_map (fun rf => (m_x m (fst rf), snd rf)) (dget (o_players o) a)).
    { cbn. unfold dmap. induction (o_players o) as [|[k v] d IH]; [reflexivity|]. cbn. destruct (Nat.eqb k a); [reflexivity|exact IH]. }
    rewrite E. destruct (dget (o_players o) a) as [[r f]|]; cbn; [|reflexivity].
    destruct (Nat.even a); (split; [reflexivity|]).
    + split; [repeat constructor|reflexivity].
    + split; [constructor|]. split; [lia|reflexivity].
  - intros a m _. cbn. repeat split. constructor.
  - intros f sc o m p _. cbn. split; reflexivity.
Qed.
Lemma polite_start_ok : about_to_run polite_start.
Proof.
  split; [repeat constructor; cbn; intuition discriminate|]. split; [repeat constructor; cbn; intuition discriminate|].
  split; [intro p; reflexivity|]. split.
  { intros p r b E. assert (r = 0) as ->. { cbn in E. destruct p as [|[|p]]; [| |discriminate]; injection E as <- _; reflexivity. } split; [exact (Nat.lt_0_succ 0)|intros []]. }
  split; [intros r []|]. repeat split.
Qed.
Definition polite_end : hst polite_world :=
  match h_run polite_cfg 9 polite_start with Some (Ok s) => s | _ => polite_start end.
Definition is_ok' (r : option (result (hst polite_world))) : bool := match r with Some (Ok _) => true | _ => false end.
Lemma polite_run : h_run polite_cfg 9 polite_start = Some (Ok polite_end).
Proof.
  assert (E : is_ok' (h_run polite_cfg 9 polite_start) = true) by (vm_compute; reflexivity). unfold polite_end.
  destruct (h_run polite_cfg 9 polite_start) as [[s|]|]; try discriminate E. reflexivity.
Qed.
