(* Generated from tools/Dec.src by tools/gen_props.py. *)
(** Times as decimal numbers. *)
From Coq Require Import QArith Qcanon ZArith List Bool Arith Lia.
From Verif Require Import Base Num SeqModel DictLemmas SimulatorModel SimulatorSpec SimulatorWorld DecModel DecSpec DecProofs DecProofs2.
Import ListNotations.
Open Scope Qc_scope.
From Verif Require Import DecMain.

(** ** C127  decimal.Decimal as the clock *)

(** A sum of two decimals has at most 28 digits, none with at most 28 digits is nearer to the true sum, and of two nearest ones it is an even one. *)
Theorem C127_nearest : forall a i b j, exists c e,
  dec_add (DNum a i) (DNum b j) = Ok (DNum c e) /\ short (value c e) /\
  forall q, short q ->
    qabs (value c e - (value a i + value b j)) <= qabs (q - (value a i + value b j)) /\
    (qabs (value c e - (value a i + value b j)) = qabs (q - (value a i + value b j)) -> q <> value c e -> Z.even c = true).
Proof. exact C127_nearest_pf. Qed.
Print Assumptions C127_nearest.

(** The same for differences. *)
Theorem C127_nearest_difference : forall a i b j, exists c e,
  dec_sub (DNum a i) (DNum b j) = Ok (DNum c e) /\ short (value c e) /\
  forall q, short q ->
    qabs (value c e - (value a i - value b j)) <= qabs (q - (value a i - value b j)) /\
    (qabs (value c e - (value a i - value b j)) = qabs (q - (value a i - value b j)) -> q <> value c e -> Z.even c = true).
Proof. exact C127_nearest_difference_pf. Qed.
Print Assumptions C127_nearest_difference.

(** A sum that has at most 28 digits is not rounded. *)
Theorem C127_exact : forall a i b j, short (value a i + value b j) -> exists c e,
  dec_add (DNum a i) (DNum b j) = Ok (DNum c e) /\ value c e = value a i + value b j.
Proof. exact C127_exact_pf. Qed.
Print Assumptions C127_exact.

(** The result does not depend on how the operands are written: 0.5 and 0.50 give the same sums. *)
Theorem C127_any_form : forall a i b j a' i' b' j', value a i = value a' i' -> value b j = value b' j' ->
  exists c e c' e' d f d' f',
    dec_add (DNum a i) (DNum b j) = Ok (DNum c e) /\ dec_add (DNum a' i') (DNum b' j') = Ok (DNum c' e') /\ value c e = value c' e' /\
    dec_sub (DNum a i) (DNum b j) = Ok (DNum d f) /\ dec_sub (DNum a' i') (DNum b' j') = Ok (DNum d' f') /\ value d f = value d' f'.
Proof. exact C127_any_form_pf. Qed.
Print Assumptions C127_any_form.

(** What the simulator with exact times calls None: minus infinity as the last time of a request, infinity as the first time of a collision. *)
Theorem C127_infinities : forall t e x f,
  (* time - last >= dt_commands *)
  (exists d, dec_sub (DNum t e) DNegInf = Ok d /\ dec_leb (DNum x f) d = true) /\
  (* time > first + after *)
  (exists d, dec_add DInf (DNum x f) = Ok d /\ dec_ltb d (DNum t e) = false) /\
  (* time < first *)
  dec_ltb (DNum t e) DInf = true.
Proof. exact C127_infinities_pf. Qed.
Print Assumptions C127_infinities.

(** With times of few digits a run on decimals is the run on exact numbers: the same logs, the same calls, the same exceptions. *)
Theorem C127_same_run : forall W (c : ctx W) m fuel d, valid_ctx c -> unused m -> 0 < dt (g_param (c_cfg c)) -> reports_stamped W -> few_times d c ->
  run_decimal fuel m c = run fuel m c.
Proof. exact C127_same_run_pf. Qed.
Print Assumptions C127_same_run.

(** Digits matter: with steps of 1/3 to 28 digits the fourth sum is rounded, the time since the last request comes out too short, and the agent is not asked although a whole period has passed. *)
Theorem C127_thirds :
  exists (W : world) (c : ctx W) s s', valid_ctx c /\ 0 < dt (g_param (c_cfg c)) /\ reports_stamped W /\
    short (c_time c) /\ short (dt (g_param (c_cfg c))) /\ dt_commands (g_param (c_cfg c)) = dt (g_param (c_cfg c)) /\ short (max_sim_time (g_param (c_cfg c))) /\
    run 9 new_simulator c = Some (Ok s) /\ run_decimal 9 new_simulator c = Some (Ok s') /\
    List.length (asks s 1%nat) = 5%nat /\ List.length (asks s' 1%nat) = 4%nat.
Proof. exact C127_thirds_pf. Qed.
Print Assumptions C127_thirds.

(** The times of a simulation with the default parameters have two digits. *)
Example C127_ex : few_times 2 ctx1 /\ valid_ctx ctx1 /\ unused (new_simulator (W := line)) /\ 0 < dt (g_param (c_cfg ctx1)) /\ reports_stamped line /\
  few_digits 2 (dt default_param) /\ few_digits 2 (max_sim_time default_param) /\ few_digits 2 (after_collision default_param) /\
  (exists s, run_decimal 7 new_simulator ctx1 = Some (Ok s) /\ time s = qf 7 2) /\
  dec_add (DNum 9999999999999999999999999999 0) (DNum 5 (- 1)) = Ok (DNum 10000000000000000000000000000 0) /\
  dec_add (DNum 1000000000000000000000000000 0) (DNum 5 (- 1)) = Ok (DNum 1000000000000000000000000000 0) /\
  dec_add (DNum 5 (- 2)) (DNum 1 (- 1)) = Ok (DNum 15 (- 2)) /\ short (value 5 (- 2) + value 1 (- 1)).
Proof.
  assert (F : forall z q, (Z.abs z < 10 ^ 27)%Z -> this q = this (qz z * pow10 (- 2)) -> few_digits 2 q) by (intros z q H E; exists z; split; [exact H|]; apply Qc_is_canon; rewrite E; reflexivity).
  split; [split; [|split; [|split; [|split]]]|].
  - apply (F 0%Z); [reflexivity|vm_compute; reflexivity].
  - apply (F 50%Z); [reflexivity|vm_compute; reflexivity].
  - apply (F 300%Z); [reflexivity|vm_compute; reflexivity].
  - apply (F 1000%Z); [reflexivity|vm_compute; reflexivity].
  - intros f X. discriminate X.
  - split; [apply started1|]. split; [reflexivity|]. split; [exact dt1|]. split; [split; [intros sc p q t a b r|intros p ob t m r]; cbn; intros [= <-]; reflexivity|].
    split; [apply (F 5%Z); [reflexivity|vm_compute; reflexivity]|]. split; [apply (F 600%Z); [reflexivity|vm_compute; reflexivity]|]. split; [apply (F 0%Z); [reflexivity|vm_compute; reflexivity]|].
    split; [|split; [reflexivity|]; split; [reflexivity|]; split; [reflexivity|]; exists 15%Z, (- 2)%Z; split; [reflexivity|apply Qc_is_canon; vm_compute; reflexivity]].
    destruct (get_ok (fun s => qeqb (time s) (qf 7 2)) (run_decimal 7 new_simulator ctx1)) as (s & E1 & E2); [vm_compute; reflexivity|]. exists s. split; [exact E1|]. apply qeqb_eq; exact E2.
Qed.
