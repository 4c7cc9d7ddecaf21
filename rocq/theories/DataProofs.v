From Coq Require Import Reals Lra List Bool String Arith Lia.
From Verif Require Import Base R2 DataModel DataSpec.
Import ListNotations.
Open Scope string_scope.

(** The canonical form of an object. *)
Definition mk (c : cls) (rs : list R) : obj := mkO (c_name c) (combine (c_fields c) (map Num rs)).

Lemma dict_form : forall (d : list (string * pv)), (forall f v, In (f, v) d -> (f = "lights" -> exists n, v = Lights n) /\ (f <> "lights" -> is_num v)) -> ~ In "lights" (map fst d) ->
  exists rs, List.length rs = List.length d /\ d = combine (map fst d) (map Num rs).
Proof.
  induction d as [|[f v] d IH]; intros H N; [exists []; split; reflexivity|].
  destruct IH as (rs & L & E); [intros; apply H; right; assumption| intros K; apply N; right; exact K|].
  destruct (H f v (or_introl eq_refl)) as [_ K]. destruct K as [r ->]; [intros ->; apply N; left; reflexivity|].
  exists (r :: rs). split; [cbn; rewrite L; reflexivity|]. cbn. rewrite <- E. reflexivity.
Qed.
Lemma inst_form c o : ~ In "lights" (c_fields c) -> instance_of c o -> exists rs, List.length rs = List.length (c_fields c) /\ o = mk c rs.
Proof.
  intros N (H1 & H2 & H3). destruct (dict_form _ H3) as (rs & L & E); [rewrite H2; exact N|].
  exists rs. split; [rewrite L, <- H2, map_length; reflexivity|]. destruct o as [cl d]. unfold mk. cbn in *. subst cl. rewrite E at 1. rewrite H2. reflexivity.
Qed.
Lemma inst_commands o : instance_of cVehicleCommands o -> exists a d n, o = mkO "VehicleCommands" [("acc", Num a); ("ddelta", Num d); ("lights", Lights n)].
Proof.
  destruct o as [cl d]. intros (H1 & H2 & H3). cbn in H1, H2. subst cl.
  destruct d as [|[f1 v1] [|[f2 v2] [|[f3 v3] [|? ?]]]]; try discriminate. cbn in H2. injection H2 as -> -> ->.
  destruct (H3 "acc" v1) as [_ K1]; [cbn; auto|]. destruct (H3 "ddelta" v2) as [_ K2]; [cbn; auto|]. destruct (H3 "lights" v3) as [K3 _]; [cbn; auto|].
  destruct K1 as [a ->]; [discriminate|]. destruct K2 as [b ->]; [discriminate|]. destruct K3 as [n ->]; [reflexivity|]. eauto.
Qed.
Lemma inst_mk c rs : ~ In "lights" (c_fields c) -> List.length rs = List.length (c_fields c) -> instance_of c (mk c rs).
Proof.
  intros N L. unfold mk. split; [reflexivity|]. cbn. generalize dependent (c_fields c). induction rs as [|r rs IH]; intros [|f l] N L; try discriminate.
  - split; [reflexivity|]. intros f v [].
  - destruct (IH l) as [I1 I2]; [intros K; apply N; right; exact K| cbn in L; congruence|]. split; [cbn; rewrite I1; reflexivity|].
    intros g v [E | K]; [injection E as <- <-; split; [intros ->; exfalso; apply N; left; reflexivity| intros _; exists r; reflexivity]| apply I2; exact K].
Qed.
Lemma inst_lights a d n : instance_of cVehicleCommands (mkO "VehicleCommands" [("acc", Num a); ("ddelta", Num d); ("lights", Lights n)]).
Proof.
  split; [reflexivity|]. split; [reflexivity|]. intros f v [E | [E | [E | []]]]; injection E as <- <-; (split; [intros K; try discriminate K; eexists; reflexivity | intros K; try (exfalso; apply K; reflexivity); eexists; reflexivity]).
Qed.
(** Case analysis on the class. *)
Ltac cases H := unfold all_classes, state_classes, command_classes in H; cbn [app] in H; repeat (destruct H as [<- | H]); [..| destruct H].
Ltac nolights := let K := fresh in intros K; compute in K; repeat (destruct K as [K | K]; [discriminate K|]); exact K.
Ltac inst o H :=
  lazymatch type of H with
  | instance_of cVehicleCommands _ => let a := fresh "a" in let d := fresh "d" in let n := fresh "n" in destruct (inst_commands o H) as (a & d & n & ->)
  | instance_of ?c _ =>
          let rs := fresh "rs" in let L := fresh "L" in let N := fresh "N" in
          assert (N : ~ In "lights" (c_fields c)) by nolights;
          destruct (inst_form c o N H) as (rs & L & ->); clear N H; cbn in L;
          repeat (let r := fresh "r" in destruct rs as [|r rs]; [discriminate L|]); (destruct rs; [|discriminate L]); clear L
  end.
Ltac isinst := first [apply inst_lights | match goal with |- instance_of ?c ?o => let rs := constr:(map (fun kv : string * pv => match snd kv with Num r => r | _ => 0%R end) (o_dict o)) in let rs' := eval cbn in rs in exact (inst_mk c rs' ltac:(nolights) eq_refl) end].
Ltac len z H := cbn in H; repeat (let r := fresh "r" in destruct z as [|r z]; [discriminate H|]); destruct z; [|discriminate H]; clear H.
Lemma aget_head k v (d : list (string * pv)) : aget String.eqb ((k, v) :: d) k = Some v.
Proof. cbn. rewrite String.eqb_refl. reflexivity. Qed.
Lemma aget_tail k k' v (d : list (string * pv)) : k <> k' -> aget String.eqb ((k, v) :: d) k' = aget String.eqb d k'.
Proof. intros N. cbn. destruct (String.eqb k k') eqn:E; [apply String.eqb_eq in E; contradiction|reflexivity]. Qed.
Lemma dict_ext : forall d1 d2 : list (string * pv), map fst d1 = map fst d2 -> NoDup (map fst d1) ->
  (forall k, In k (map fst d1) -> aget String.eqb d1 k = aget String.eqb d2 k) -> d1 = d2.
Proof.
  induction d1 as [|[k v] d1 IH]; intros [|[k2 v2] d2] E N H; try discriminate; [reflexivity|].
  cbn in E. injection E as <- E. inversion N; subst. f_equal.
  - specialize (H k (or_introl eq_refl)). rewrite !aget_head in H. congruence.
  - apply IH; [exact E| assumption|]. intros q Q. assert (k <> q) by (intros <-; contradiction).
    specialize (H q (or_intror Q)). rewrite !aget_tail in H by assumption. exact H.
Qed.
Lemma getattr_other o f g v : f <> g -> getattr (setattr o g v) f = getattr o f.
Proof.
  intros N. unfold getattr, setattr. cbn [o_dict].
  assert (G : forall d : list (string * pv), aget String.eqb (aset String.eqb d g v) f = aget String.eqb d f).
  { induction d as [|[q w'] d IH]; cbn; [destruct (String.eqb g f) eqn:E; [apply String.eqb_eq in E; subst; contradiction| reflexivity]|].
    destruct (String.eqb q g) eqn:E; cbn.
    - apply String.eqb_eq in E. subst q. destruct (String.eqb g f) eqn:E; [apply String.eqb_eq in E; subst; contradiction| reflexivity].
    - destruct (String.eqb q f); [reflexivity| exact IH]. }
  rewrite G. reflexivity.
Qed.
