(** Vocabulary of the statements on the reports of lane followers. *)
From Coq Require Import Reals Qcanon List String.
From Verif Require Import Base Num R2 SeqModel DynModel.
Import ListNotations.
Open Scope R_scope.

(** A line from [a] to [b]: two samples at the times 0 and 1. *)
Definition is_line (s : seq vst) (a b : vec) : Prop :=
  tss s = [qz 0; qz 1] /\ map (fun x => (v_x x, v_y x)) (vals s) = [a; b].
(** One golden line. *)
Definition golden_line (o : result (option (list (seq vst * string)))) (a b : vec) : Prop :=
  exists s, o = Ok (Some [(s, "gold"%string)]) /\ is_line s a b.
