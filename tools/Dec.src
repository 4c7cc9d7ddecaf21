(** Times as decimal numbers. *)
From Coq Require Import QArith Qcanon ZArith List Bool Arith Lia.
From Verif Require Import Base Num SeqModel DictLemmas SimulatorModel SimulatorSpec SimulatorWorld DecModel DecSpec DecProofs DecProofs2.
Import ListNotations.
Open Scope Qc_scope.
(* BODY *)

(** ** C127  decimal.Decimal as the clock *)

(** A sum of two decimals has at most 28 digits, none with at most 28 digits is nearer to the true sum, and of two nearest ones it is an even one. *)
Theorem C127_nearest : forall a i b j, exists c e,
  dec_add (DNum a i) (DNum b j) = Ok (DNum c e) /\ short (value c e) /\
  forall q, short q ->
    qabs (value c e - (value a i + value b j)) <= qabs (q - (value a i + value b j)) /\
    (qabs (value c e - (value a i + value b j)) = qabs (q - (value a i + value b j)) -> q <> value c e -> Z.even c = true).
Proof.
  intros a i b j. set (m := Z.min i j). rewrite (value_at a i m), (value_at b j m), value_plus by lia. destruct (fix_short (a * 10 ^ (i - m) + b * 10 ^ (j - m)) m) as (c & e & E & S). exists c, e. split; [unfold dec_add; fold m; rewrite E; reflexivity|]. split; [exact S|].
  intros q (z & k & Hz & ->). fold (value z k). destruct (fix_nearest (a * 10 ^ (i - m) + b * 10 ^ (j - m)) m z k Hz) as (c' & e' & E' & N1 & N2). rewrite E in E'. injection E' as <- <-. split; [exact N1|exact N2].
Qed.

(** The same for differences. *)
Theorem C127_nearest_difference : forall a i b j, exists c e,
  dec_sub (DNum a i) (DNum b j) = Ok (DNum c e) /\ short (value c e) /\
  forall q, short q ->
    qabs (value c e - (value a i - value b j)) <= qabs (q - (value a i - value b j)) /\
    (qabs (value c e - (value a i - value b j)) = qabs (q - (value a i - value b j)) -> q <> value c e -> Z.even c = true).
Proof.
  intros a i b j. unfold Qcminus at 2 4 6 8. rewrite value_opp. exact (C127_nearest_pf a i (- b) j).
Qed.

(** A sum that has at most 28 digits is not rounded. *)
Theorem C127_exact : forall a i b j, short (value a i + value b j) -> exists c e,
  dec_add (DNum a i) (DNum b j) = Ok (DNum c e) /\ value c e = value a i + value b j.
Proof.
  intros a i b j S. destruct (C127_nearest_pf a i b j) as (c & e & E & _ & N). exists c, e. split; [exact E|]. destruct (N _ S) as [N1 _].
  set (x := value a i + value b j) in *. replace (qabs (x - x)) with (Q2Qc 0) in N1 by (replace (x - x) with (Q2Qc 0) by ring; reflexivity).
  unfold qabs in N1. destruct (qltb_spec (value c e - x) 0); qlra.
Qed.

(** The result does not depend on how the operands are written: 0.5 and 0.50 give the same sums. *)
Theorem C127_any_form : forall a i b j a' i' b' j', value a i = value a' i' -> value b j = value b' j' ->
  exists c e c' e' d f d' f',
    dec_add (DNum a i) (DNum b j) = Ok (DNum c e) /\ dec_add (DNum a' i') (DNum b' j') = Ok (DNum c' e') /\ value c e = value c' e' /\
    dec_sub (DNum a i) (DNum b j) = Ok (DNum d f) /\ dec_sub (DNum a' i') (DNum b' j') = Ok (DNum d' f') /\ value d f = value d' f'.
Proof.
  intros a i b j a' i' b' j' A B.
  assert (P := dec_add_form a i b j a' i' b' j' A B). assert (Q := dec_add_form a i (- b) j a' i' (- b') j' A ltac:(rewrite <- !value_opp, B; reflexivity)).
  destruct (C127_nearest_pf a i b j) as (c & e & E1 & _). destruct (C127_nearest_pf a' i' b' j') as (c' & e' & E2 & _). destruct (C127_nearest_pf a i (- b) j) as (d & f & E3 & _). destruct (C127_nearest_pf a' i' (- b') j') as (d' & f' & E4 & _).
  exists c, e, c', e', d, f, d', f'. rewrite E1, E2 in P. rewrite E3, E4 in Q. split; [exact E1|]. split; [exact E2|]. split; [exact P|]. split; [exact E3|]. split; [exact E4|exact Q].
Qed.

(** What the simulator with exact times calls None: minus infinity as the last time of a request, infinity as the first time of a collision. *)
Theorem C127_infinities : forall t e x f,
  (* time - last >= dt_commands *)
  (exists d, dec_sub (DNum t e) DNegInf = Ok d /\ dec_leb (DNum x f) d = true) /\
  (* time > first + after *)
  (exists d, dec_add DInf (DNum x f) = Ok d /\ dec_ltb d (DNum t e) = false) /\
  (* time < first *)
  dec_ltb (DNum t e) DInf = true.
Proof. intros t e x f. split; [exists DInf; split; reflexivity|]. split; [exists DInf; split; reflexivity|reflexivity]. Qed.

(** With times of few digits a run on decimals is the run on exact numbers: the same logs, the same calls, the same exceptions. *)
Theorem C127_same_run : forall W (c : ctx W) m fuel d, valid_ctx c -> unused m -> 0 < dt (g_param (c_cfg c)) -> reports_stamped W -> few_times d c ->
  run_decimal fuel m c = run fuel m c.
Proof. intros W c m fuel d V U Hd St F. exact (run_same d fuel m c V U Hd St F). Qed.

(** 1/3 to 28 digits. *)
Definition third : Qc := value (10 ^ 28 / 3) (- 28).

(** One player that runs along the line, asked every third of a second. *)
Definition ctx3 : ctx line := @mkCtx line (@mkConfig line [] (mkParam third third (qf 3 2) 0) [] true 0%nat) [(1%nat, qz 0)] [(1%nat, qz 1)] [] [] 0 false [] None.

(** Digits matter: with steps of 1/3 to 28 digits the fourth sum is rounded, the time since the last request comes out too short, and the agent is not asked although a whole period has passed. *)
Theorem C127_thirds :
  exists (W : world) (c : ctx W) s s', valid_ctx c /\ 0 < dt (g_param (c_cfg c)) /\ reports_stamped W /\
    short (c_time c) /\ short (dt (g_param (c_cfg c))) /\ dt_commands (g_param (c_cfg c)) = dt (g_param (c_cfg c)) /\ short (max_sim_time (g_param (c_cfg c))) /\
    run 9 new_simulator c = Some (Ok s) /\ run_decimal 9 new_simulator c = Some (Ok s') /\
    List.length (asks s 1%nat) = 5%nat /\ List.length (asks s' 1%nat) = 4%nat.
Proof.
  destruct (get_ok (fun s => Nat.eqb (List.length (asks s 1%nat)) 5) (run 9 new_simulator ctx3)) as (s & E1 & E2); [vm_compute; reflexivity|].
  destruct (get_ok (fun s => Nat.eqb (List.length (asks s 1%nat)) 4) (run_decimal 9 new_simulator ctx3)) as (s' & E3 & E4); [vm_compute; reflexivity|].
  exists line, ctx3, s, s'. split; [split; [vm_compute; reflexivity|]; repeat split; cbn; repeat constructor; cbn; intuition congruence|].
  split; [vm_compute; reflexivity|]. split; [split; [intros sc p q t a b r|intros p ob t m r]; cbn; intros [= <-]; reflexivity|].
  split; [exists 0%Z, 0%Z; split; [reflexivity|apply Qc_is_canon; vm_compute; reflexivity]|]. split; [exists (10 ^ 28 / 3)%Z, (- 28)%Z; split; reflexivity|]. split; [reflexivity|].
  split; [exists 15%Z, (- 1)%Z; split; [reflexivity|apply Qc_is_canon; vm_compute; reflexivity]|]. split; [exact E1|]. split; [exact E3|]. split; apply Nat.eqb_eq; assumption.
Qed.

(** The times of a simulation with the default parameters have two digits. *)
Example C127_ex : few_times 2 ctx1 /\ valid_ctx ctx1 /\ unused (new_simulator (W := line)) /\ 0 < dt (g_param (c_cfg ctx1)) /\ reports_stamped line /\
  few_digits 2 (dt default_param) /\ few_digits 2 (max_sim_time default_param) /\ few_digits 2 (after_collision default_param) /\
  (exists s, run_decimal 7 new_simulator ctx1 = Some (Ok s) /\ time s = qf 7 2) /\
  dec_add (DNum 9999999999999999999999999999 0) (DNum 5 (- 1)) = Ok (DNum 10000000000000000000000000000 0) /\
  dec_add (DNum 1000000000000000000000000000 0) (DNum 5 (- 1)) = Ok (DNum 1000000000000000000000000000 0) /\
  dec_add (DNum 5 (- 2)) (DNum 1 (- 1)) = Ok (DNum 15 (- 2)) /\ short (value 5 (- 2) + value 1 (- 1)).
Proof.
  assert (F : forall z q, (Z.abs z < 10 ^ 27)%Z -> this q = this (qz z * pow10 (- 2)) -> few_digits 2 q) by (intros z q H E; exists z; split; [exact H|]; apply Qc_is_canon; rewrite E; reflexivity).
  split; [split; [|split; [|split; [|split]]]|].
  - apply (F 0%Z); [reflexivity|vm_compute; reflexivity].
  - apply (F 50%Z); [reflexivity|vm_compute; reflexivity].
  - apply (F 300%Z); [reflexivity|vm_compute; reflexivity].
  - apply (F 1000%Z); [reflexivity|vm_compute; reflexivity].
  - intros f X. discriminate X.
  - split; [apply started1|]. split; [reflexivity|]. split; [exact dt1|]. split; [split; [intros sc p q t a b r|intros p ob t m r]; cbn; intros [= <-]; reflexivity|].
    split; [apply (F 5%Z); [reflexivity|vm_compute; reflexivity]|]. split; [apply (F 600%Z); [reflexivity|vm_compute; reflexivity]|]. split; [apply (F 0%Z); [reflexivity|vm_compute; reflexivity]|].
    split; [|split; [reflexivity|]; split; [reflexivity|]; split; [reflexivity|]; exists 15%Z, (- 2)%Z; split; [reflexivity|apply Qc_is_canon; vm_compute; reflexivity]].
    destruct (get_ok (fun s => qeqb (time s) (qf 7 2)) (run_decimal 7 new_simulator ctx1)) as (s & E1 & E2); [vm_compute; reflexivity|]. exists s. split; [exact E1|]. apply qeqb_eq; exact E2.
Qed.
