(** Concrete trajectories and graphs used as witnesses in TrajProps. *)
From Coq Require Import QArith Qcanon ZArith List Bool Arith Lia Sorted.
From Verif Require Import Base Num SeqModel SeqSpec SeqProofs SeqProofs2 VehState TrajModel TrajSpec AssocLemmas TrajProofs TrajGraphProofs.
Import ListNotations.
Open Scope Qc_scope.

(** A state at position [k], moving at speed 3. *)
Definition st (k : Z) : vstate := mkVS (qz k) 0 0 (qz 3) 0.
Definition tr_a : traj := mkSeq [qz 0; qz 1] [st 0; st 1] true.
Definition tr_b : traj := mkSeq [qz 1; qz 2] [st 1; st 2] true.
Definition tr_far : traj := mkSeq [qz 5; qz 6] [st 50; st 60] true.

Definition nA := Timed (qz 0) (st 0).
Definition nB := Timed (qz 1) (st 1).
Definition nC := Timed (qz 1) (st 2).
Definition nD := Timed (qz 2) (st 3).
Definition nE := Timed (qz 2) (st 5).

Definition two (t0 s0 t1 s1 : Z) : traj := mkSeq [qz t0; qz t1] [st s0; st s1] true.
Definition trAB := two 0 0 1 1.
Definition trAC := two 0 0 1 2.
Definition trBD := two 1 1 2 3.
Definition trCD := two 1 2 2 3.
Definition trAE := two 0 0 2 5.
Definition trBE := two 1 1 2 5.

Definition eAB := mkED trAB None.
Definition eAE := mkED trAE None.

Definition diamond : graph :=
  mkG [(nA, Some 0%nat); (nB, Some 1%nat); (nC, Some 1%nat); (nD, Some 2%nat)]
      [((nA, nB), mkED trAB None); ((nA, nC), mkED trAC None); ((nB, nD), mkED trBD None); ((nC, nD), mkED trCD None)].

Definition cmd (k : Z) : vcmd := mkVC (qz k) 0.
Definition triangle : graph :=
  mkG [(nA, Some 0%nat); (nB, Some 1%nat); (nE, Some 2%nat)]
      [((nA, nB), mkED trAB (Some (cmd 1))); ((nA, nE), mkED trAE (Some (cmd 2))); ((nB, nE), mkED trBE (Some (cmd 3)))].

Lemma two_ok t0 s0 t1 s1 : (t0 < t1)%Z -> obtainable (two t0 s0 t1 s1).
Proof.
  intro H. eapply ob_new with (ty := true). apply new_seq_ok; [reflexivity|].
  constructor; [constructor; constructor|]. constructor; [|constructor]. unfold qz, Qclt.
  change (Qred (inject_Z t0) < Qred (inject_Z t1))%Q. rewrite !Qred_correct. rewrite <- Zlt_Qlt. exact H.
Qed.
Lemma trBE_ok : obtainable trBE.
Proof. apply two_ok. lia. Qed.

Lemma start_built : built (mkG [(nA, Some 0%nat)] []).
Proof. change (built (add_node g_empty nA (Some 0%nat))). apply built_node. constructor. Qed.

Lemma diamond_built : built diamond.
Proof.
  assert (B1 : built (mkG [(nA, Some 0%nat); (nB, Some 1%nat)] [((nA, nB), mkED trAB None)])).
  { eapply built_edge with (states := trAB) (tr := trAB) (cmds := None); [exact start_built|apply two_ok; lia|cbn; lia|vm_compute; reflexivity]. }
  assert (B2 : built (mkG [(nA, Some 0%nat); (nB, Some 1%nat); (nC, Some 1%nat)]
     [((nA, nB), mkED trAB None); ((nA, nC), mkED trAC None)])).
  { eapply built_edge with (states := trAC) (tr := trAC) (cmds := None); [exact B1|apply two_ok; lia|cbn; lia|vm_compute; reflexivity]. }
  assert (B3 : built (mkG [(nA, Some 0%nat); (nB, Some 1%nat); (nC, Some 1%nat); (nD, Some 2%nat)]
     [((nA, nB), mkED trAB None); ((nA, nC), mkED trAC None); ((nB, nD), mkED trBD None)])).
  { eapply built_edge with (states := trBD) (tr := trBD) (cmds := None); [exact B2|apply two_ok; lia|cbn; lia|vm_compute; reflexivity]. }
  eapply built_edge with (states := trCD) (tr := trCD) (cmds := None); [exact B3|apply two_ok; lia|cbn; lia|vm_compute; reflexivity].
Qed.

Lemma small_built : built (mkG [(nA, Some 0%nat); (nB, Some 1%nat); (nE, Some 1%nat)] [((nA, nB), eAB); ((nA, nE), eAE)]).
Proof.
  assert (B1 : built (mkG [(nA, Some 0%nat); (nB, Some 1%nat)] [((nA, nB), mkED trAB None)])).
  { eapply built_edge with (states := trAB) (tr := trAB) (cmds := None); [exact start_built|apply two_ok; lia|cbn; lia|vm_compute; reflexivity]. }
  eapply built_edge with (states := trAE) (tr := trAE) (cmds := None); [exact B1|apply two_ok; lia|cbn; lia|vm_compute; reflexivity].
Qed.

Lemma triangle_built : built triangle.
Proof.
  assert (B1 : built (mkG [(nA, Some 0%nat); (nB, Some 1%nat)] [((nA, nB), mkED trAB (Some (cmd 1)))])).
  { eapply built_edge with (states := trAB) (tr := trAB) (cmds := Some (cmd 1)); [exact start_built|apply two_ok; lia|cbn; lia|vm_compute; reflexivity]. }
  assert (B2 : built (mkG [(nA, Some 0%nat); (nB, Some 1%nat); (nE, Some 1%nat)]
     [((nA, nB), mkED trAB (Some (cmd 1))); ((nA, nE), mkED trAE (Some (cmd 2)))])).
  { eapply built_edge with (states := trAE) (tr := trAE) (cmds := Some (cmd 2)); [exact B1|apply two_ok; lia|cbn; lia|vm_compute; reflexivity]. }
  eapply built_edge with (states := trBE) (tr := trBE) (cmds := Some (cmd 3)); [exact B2|apply two_ok; lia|cbn; lia|vm_compute; reflexivity].
Qed.

Lemma diamond_nodes : nodes diamond = [nA; nB; nC; nD].
Proof. reflexivity. Qed.
Lemma diamond_edges : edges diamond = [(nA, nB); (nA, nC); (nB, nD); (nC, nD)].
Proof. reflexivity. Qed.

Lemma diamond_walk_B : walk diamond nA nD [nA; nB; nD].
Proof.
  apply walk_step with nB; [rewrite diamond_edges; left; reflexivity|].
  apply walk_step with nD; [rewrite diamond_edges; do 2 right; left; reflexivity|].
  constructor. rewrite diamond_nodes. do 3 right; left; reflexivity.
Qed.
Lemma diamond_walk_C : walk diamond nA nD [nA; nC; nD].
Proof.
  apply walk_step with nC; [rewrite diamond_edges; right; left; reflexivity|].
  apply walk_step with nD; [rewrite diamond_edges; do 3 right; left; reflexivity|].
  constructor. rewrite diamond_nodes. do 3 right; left; reflexivity.
Qed.

Lemma diamond_root n : In n (nodes diamond) -> ((forall u, ~ In (u, n) (edges diamond)) <-> n = nA).
Proof.
  rewrite diamond_nodes, diamond_edges. intro H. split.
  - intro E. destruct H as [<-|[<-|[<-|[<-|[]]]]]; [reflexivity|exfalso..].
    + apply (E nA). left; reflexivity.
    + apply (E nA). right; left; reflexivity.
    + apply (E nB). do 2 right; left; reflexivity.
  - intros -> u C. repeat (destruct C as [C|C]; [discriminate C|]). exact C.
Qed.
Lemma diamond_leaf n : In n (nodes diamond) /\ (forall v, ~ In (n, v) (edges diamond)) <-> n = nD.
Proof.
  rewrite diamond_nodes, diamond_edges. split.
  - intros [H E]. destruct H as [<-|[<-|[<-|[<-|[]]]]]; [exfalso..|reflexivity].
    + apply (E nB). left; reflexivity.
    + apply (E nD). do 2 right; left; reflexivity.
    + apply (E nD). do 3 right; left; reflexivity.
  - intros ->. split; [do 3 right; left; reflexivity|]. intros u C. repeat (destruct C as [C|C]; [discriminate C|]). exact C.
Qed.

Lemma diamond_spans : transitions_span_edges diamond.
Proof.
  intros u v d E. apply (aget_In edge_eqb edge_eqb_eq) in E. cbn [g_edges diamond] in E.
  destruct E as [[= <- <- <-]|[[= <- <- <-]|[[= <- <- <-]|[[= <- <- <-]|[]]]]];
    (split; [apply two_ok; lia|split; reflexivity]).
Qed.

Lemma triangle_long : walk triangle nA nE [nA; nB; nE].
Proof.
  apply walk_step with nB; [left; reflexivity|]. apply walk_step with nE; [do 2 right; left; reflexivity|].
  constructor. do 2 right; left; reflexivity.
Qed.
Lemma triangle_short : walk triangle nA nE [nA; nE].
Proof. apply walk_step with nE; [right; left; reflexivity|]. constructor. do 2 right; left; reflexivity. Qed.
Lemma triangle_cmds e d : aget edge_eqb (g_edges triangle) e = Some d -> exists c, ed_commands d = Some c.
Proof.
  intro E. apply (aget_In edge_eqb edge_eqb_eq) in E. cbn [g_edges triangle] in E.
  destruct E as [[= <- <-]|[[= <- <-]|[[= <- <-]|[]]]]; eexists; reflexivity.
Qed.

Lemma Forall2_len {A B} (R : A -> B -> Prop) l m : Forall2 R l m -> length l = length m.
Proof. induction 1; cbn; congruence. Qed.
