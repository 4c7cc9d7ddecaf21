(* Generated from tools/Data.src by tools/gen_props.py. *)
(** Properties of states, commands and velocities. *)
From Coq Require Import Reals Lra List Bool String Arith Lia.
From Verif Require Import Base R2 DataModel DataSpec DataProofs.
Import ListNotations.
Open Scope string_scope.

(** Every state and command, except spacecraft commands and commands with lights, comes
    back from its array. *)
Lemma C53_round_trip_pf : forall c o, In c all_classes -> c_name c <> "VehicleCommands" -> c_name c <> "SpacecraftCommands" -> instance_of c o ->
  exists z, as_ndarray c o = Ok z /\ List.length z = List.length (c_fields c) /\ from_array c z = Ok o.
Proof.
  intros c o Hc N1 N2 H. cases Hc; try (exfalso; apply N1; reflexivity); try (exfalso; apply N2; reflexivity); inst o H; eexists; (split; [reflexivity|]; split; reflexivity).
Qed.

(** Every array of the right length is the array of a state. *)
Lemma C53_array_round_trip_pf : forall c z, In c all_classes -> c_name c <> "VehicleCommands" -> c_name c <> "SpacecraftCommands" -> List.length z = List.length (c_fields c) ->
  exists o, from_array c z = Ok o /\ instance_of c o /\ as_ndarray c o = Ok z.
Proof.
  intros c z Hc N1 N2 H. cases Hc; try (exfalso; apply N1; reflexivity); try (exfalso; apply N2; reflexivity); len z H; (eexists; split; [reflexivity|]; split; [isinst| reflexivity]).
Qed.

(** Acceleration and steering rate of vehicle commands survive; the lights are replaced
    by no lights. *)
Lemma C53_vehicle_commands_partial_pf : forall o, instance_of cVehicleCommands o ->
  exists z o', as_ndarray cVehicleCommands o = Ok z /\ List.length z = 2%nat /\ from_array cVehicleCommands z = Ok o' /\ instance_of cVehicleCommands o' /\
  getattr o' "acc" = getattr o "acc" /\ getattr o' "ddelta" = getattr o "ddelta" /\ getattr o' "lights" = Ok (Lights "none").
Proof. intros o H. inst o H. eexists. eexists. split; [reflexivity|]. split; [reflexivity|]. split; [reflexivity|]. split; [apply inst_lights|]. repeat split; reflexivity. Qed.

Lemma C53_lights_refuted_pf : exists o z o', instance_of cVehicleCommands o /\ as_ndarray cVehicleCommands o = Ok z /\ from_array cVehicleCommands z = Ok o' /\ o' <> o.
Proof. exists (mkO "VehicleCommands" [("acc", Num 1); ("ddelta", Num 0); ("lights", Lights "turn_left")]). eexists. eexists. split; [apply inst_lights|]. split; [reflexivity|]. split; [reflexivity| discriminate]. Qed.

(** No spacecraft command can be made from an array. *)
Lemma C53_spacecraft_refuted_pf : (forall z, exists e, from_array cSpacecraftCommands z = Err e) /\
  exists o z, instance_of cSpacecraftCommands o /\ as_ndarray cSpacecraftCommands o = Ok z /\ from_array cSpacecraftCommands z = Err PyKeyError.
Proof.
  split.
  - intros z. unfold from_array. destruct (_ =? _)%nat; eexists; reflexivity.
  - exists (mk cSpacecraftCommands [1; 2]%R). eexists. split; [apply inst_mk; [nolights| reflexivity]|]. split; reflexivity.
Qed.

(** The constructor gives every field the value passed for it, or else its default; an
    unknown field and a missing one without default are errors. *)
Lemma C53_construct_pf : forall c kw,
  (forall o, construct c kw = Ok o -> forall f, In f (c_fields c) -> exists v, getattr o f = Ok v /\ (aget String.eqb kw f = Some v \/ (aget String.eqb kw f = None /\ aget String.eqb (c_defaults c) f = Some v))) /\
  (forall k v, In (k, v) kw -> ~ In k (c_fields c) -> construct c kw = Err PyTypeError) /\
  (forall f, In f (c_fields c) -> aget String.eqb kw f = None -> aget String.eqb (c_defaults c) f = None -> construct c kw = Err PyTypeError).
Proof.
  intros c kw. unfold construct. set (F := fun f => match aget String.eqb kw f with Some v => Ok (f, v) | None => match aget String.eqb (c_defaults c) f with Some v => Ok (f, v) | None => Err PyTypeError end end).
  assert (FE : forall f e, F f = Err e -> e = PyTypeError) by (intros f e; unfold F; destruct (aget String.eqb kw f); [discriminate|]; destruct (aget String.eqb (c_defaults c) f); [discriminate|]; congruence).
  assert (ME : forall l e, mapM F l = Err e -> e = PyTypeError) by (induction l as [|f l IH]; intros e; cbn [mapM]; [discriminate|]; destruct (F f) as [y|e'] eqn:Ff; cbn [bind]; [destruct (mapM F l); cbn [bind]; [discriminate|intros [= <-]; apply IH; reflexivity]|intros [= <-]; exact (FE f _ Ff)]).
  assert (FF : forall f y, F f = Ok y -> exists v, y = (f, v) /\ (aget String.eqb kw f = Some v \/ (aget String.eqb kw f = None /\ aget String.eqb (c_defaults c) f = Some v))) by (intros f y; unfold F; destruct (aget String.eqb kw f) as [v|]; [intros [= <-]; exists v; auto|]; destruct (aget String.eqb (c_defaults c) f) as [v|]; [intros [= <-]; exists v; auto|discriminate]).
  split; [|split].
  - destruct (forallb _ kw); [|discriminate]. intros o E. destruct (mapM F (c_fields c)) as [d|] eqn:M; [|discriminate]. cbn [bind] in E. injection E as <-. unfold getattr. cbn [o_dict]. revert d M. induction (c_fields c) as [|g l IH]; intros d M f I; [contradiction|]. cbn [mapM] in M. destruct (F g) as [y|] eqn:Fg; [|discriminate]. cbn [bind] in M. destruct (mapM F l) as [ys|] eqn:Ml; [|discriminate]. cbn [bind] in M. injection M as <-. destruct (FF g y Fg) as (v & -> & V). cbn [aget]. destruct (String.eqb_spec g f) as [->|N]; [exists v; auto|]. destruct I as [I|I]; [contradiction|]. destruct (IH ys eq_refl f I) as (w & W & V'). exists w. split; [exact W|exact V'].
  - intros k v I N. replace (forallb _ kw) with false; [reflexivity|]. symmetry. apply not_true_is_false. intro A. rewrite forallb_forall in A. specialize (A (k, v) I). cbn [fst] in A. apply existsb_exists in A as (x & X & Y). apply String.eqb_eq in Y. subst x. contradiction.
  - intros f I K D. destruct (forallb _ kw); [|reflexivity]. destruct (mapM F (c_fields c)) as [d|e] eqn:M; [|cbn [bind]; f_equal; exact (ME _ _ M)]. exfalso. revert d M. induction (c_fields c) as [|g l IH]; intros d M; [contradiction|]. cbn [mapM] in M. destruct (F g) as [y|] eqn:Fg; [|discriminate]. cbn [bind] in M. destruct (mapM F l) as [ys|] eqn:Ml; [|discriminate]. destruct I as [->|I]; [|exact (IH I ys eq_refl)]. unfold F in Fg. rewrite K, D in Fg. discriminate.
Qed.

(** Arrays of the wrong length are rejected. *)
Lemma C53_wrong_length_pf : forall c z, In c all_classes -> List.length z <> List.length (numeric c) -> from_array c z = Err PyAssertionError.
Proof.
  intros c z Hc H. unfold from_array. replace (List.length (c_idx c) =? List.length z)%nat with false; [reflexivity|]. symmetry. apply Nat.eqb_neq.
  intros E. apply H. rewrite <- E. cases Hc; reflexivity.
Qed.

(** The first three numbers of the array of a state are its position and heading,
    the indices in [idx] being those of the array. *)
Lemma C53_layout_pf : forall c o z, In c all_classes -> instance_of c o -> as_ndarray c o = Ok z ->
  List.length z = List.length (numeric c) /\ (forall f i, In (f, i) (c_idx c) -> exists r, nth_error z i = Some r /\ has o f r) /\
  (In c state_classes -> exists x y psi, firstn 3 z = [x; y; psi] /\ has o "x" x /\ has o "y" y /\ has o "psi" psi).
Proof.
  intros c o z Hc H E. cases Hc; inst o H; cbn in E; injection E as <-; (split; [reflexivity|]; split; [intros f i K; cbn in K; repeat (destruct K as [K | K]; [injection K as <- <-; eexists; split; reflexivity|]); destruct K|]);
  intros K; first [do 3 eexists; repeat split; reflexivity | exfalso; unfold state_classes in K; cbn in K; repeat (destruct K as [K | K]; [discriminate K|]); exact K].
Qed.

(** Two objects of a class are equal as soon as they have the same numbers and the
    same lights. *)
Lemma C54_extensional_pf : forall c a b, In c all_classes -> instance_of c a -> instance_of c b -> (forall f, In f (c_fields c) -> getattr a f = getattr b f) -> a = b.
Proof.
  intros c a b Hc (A1 & A2 & _) (B1 & B2 & _) H. destruct a as [ca da], b as [cb db]. cbn in A1, A2, B1, B2. subst ca cb. f_equal.
  apply dict_ext; [congruence| rewrite A2; cases Hc; repeat constructor; cbn; intuition discriminate|].
  intros k K. rewrite A2 in K. specialize (H k K). unfold getattr in H. cbn in H.
  destruct (aget String.eqb da k), (aget String.eqb db k); congruence.
Qed.

(** Addition adds every component; the lights are those of the left operand. *)
Lemma C54_add_pf : forall c a b, In c all_classes -> instance_of c a -> instance_of c b ->
  exists s, o_add c a b = Ok s /\ instance_of c s /\ (forall f x y, In f (numeric c) -> has a f x -> has b f y -> has s f (x + y)) /\
  (In "lights" (c_fields c) -> getattr s "lights" = getattr a "lights").
Proof.
  intros c a b Hc Ha Hb. cases Hc; inst a Ha; inst b Hb; (eexists; split; [reflexivity|]; split; [isinst|]; split;
  [intros f x y K; unfold has; cbn in K; repeat (destruct K as [<- | K]; [cbn; intros X Y; injection X as <-; injection Y as <-; reflexivity|]); destruct K
  | cbn; intros K; try reflexivity; intuition discriminate]).
Qed.

(** Multiplication by a scalar multiplies every component. *)
Lemma C54_scale_pf : forall c a k, In c all_classes -> instance_of c a ->
  exists s, o_mul c a k = Ok s /\ instance_of c s /\ (forall f x, In f (numeric c) -> has a f x -> has s f (x * k)) /\
  (In "lights" (c_fields c) -> getattr s "lights" = getattr a "lights").
Proof.
  intros c a k Hc Ha. cases Hc; inst a Ha; (eexists; split; [reflexivity|]; split; [isinst|]; split;
  [intros f x K; unfold has; cbn in K; repeat (destruct K as [<- | K]; [cbn; intros X; injection X as <-; reflexivity|]); destruct K
  | cbn; intros K; try reflexivity; intuition discriminate]).
Qed.

Lemma C54_sub_pf : forall c a b, In c all_classes -> instance_of c a -> instance_of c b ->
  exists s, o_sub c a b = Ok s /\ instance_of c s /\ (forall f x y, In f (numeric c) -> has a f x -> has b f y -> has s f (x - y)).
Proof.
  intros c a b Hc Ha Hb. destruct (C54_scale_pf c b (-1) Hc Hb) as (nb & E & Hn & N & _).
  destruct (C54_add_pf c a nb Hc Ha Hn) as (s & Es & Hs & S1 & _). exists s. unfold o_sub. rewrite E. cbn [bind]. split; [exact Es|]. split; [exact Hs|].
  intros f x y Kf X Y. specialize (S1 f x _ Kf X (N f y Kf Y)). replace (x - y)%R with (x + y * -1)%R by ring. exact S1.
Qed.

(** Dividing divides every component, and by zero is a ZeroDivisionError. *)
Lemma C54_div_pf : forall c a k, In c all_classes -> instance_of c a ->
  (k = 0%R -> o_div c a k = Err PyZeroDivisionError) /\
  (k <> 0%R -> exists s, o_div c a k = Ok s /\ instance_of c s /\ forall f x, In f (numeric c) -> has a f x -> has s f (x / k)).
Proof.
  intros c a k Hc Ha. unfold o_div. split; intros K; destruct (Req_EM_T k 0); try contradiction; [reflexivity|].
  destruct (C54_scale_pf c a (1 / k) Hc Ha) as (s & E & Hs & S1 & _). exists s. split; [exact E|]. split; [exact Hs|].
  intros f x Kf X. replace (x / k)%R with (x * (1 / k))%R by (field; assumption). apply S1; assumption.
Qed.

(** Operands of different types are refused, whatever they are. *)
Lemma C54_other_type_pf : forall c a b, o_cls a <> o_cls b -> o_add c a b = Err PyOther /\ o_radd c a b = Err PyOther.
Proof. intros c a b N. unfold o_add, o_radd, add_body. destruct (String.eqb (o_cls a) (o_cls b)) eqn:E; [apply String.eqb_eq in E; contradiction| split; reflexivity]. Qed.

(** Two objects with the same lights, if their class has any. *)
Definition same_lights (c : cls) (a b : obj) : Prop := In "lights" (c_fields c) -> getattr a "lights" = getattr b "lights".

Lemma field_num c a f : In c all_classes -> instance_of c a -> In f (numeric c) -> exists x, has a f x.
Proof. intros Hc Ha K. cases Hc; inst a Ha; cbn in K; repeat (destruct K as [<- | K]; [eexists; reflexivity|]); destruct K. Qed.

Lemma ext_num c a b : In c all_classes -> instance_of c a -> instance_of c b -> same_lights c a b -> (forall f x y, In f (numeric c) -> has a f x -> has b f y -> x = y) -> a = b.
Proof.
  intros Hc Ha Hb L H. apply (C54_extensional_pf c); try assumption. intros f K. destruct (string_dec f "lights") as [-> | N]; [apply L; exact K|].
  assert (K' : In f (numeric c)) by (apply filter_In; split; [exact K|]; apply Bool.negb_true_iff; apply String.eqb_neq; exact N).
  destruct (field_num c a f Hc Ha K') as [x X]. destruct (field_num c b f Hc Hb K') as [y Y]. rewrite (H f x y K' X Y) in X. unfold has in *. congruence.
Qed.

Lemma has_fun o f x y : has o f x -> has o f y -> x = y.
Proof. unfold has. congruence. Qed.

(** x + y = y + x. *)
Lemma C54_comm_pf : forall c a b, In c all_classes -> instance_of c a -> instance_of c b -> same_lights c a b -> o_add c a b = o_add c b a.
Proof.
  intros c a b Hc Ha Hb L. destruct (C54_add_pf c a b Hc Ha Hb) as (s & E & Hs & S1 & SL). destruct (C54_add_pf c b a Hc Hb Ha) as (t & F & Ht & T1 & TL).
  rewrite E, F. f_equal. apply (ext_num c); try assumption.
  - intros K. rewrite SL, TL by exact K. apply L. exact K.
  - intros f x y K X Y. destruct (field_num c a f Hc Ha K) as [u U]. destruct (field_num c b f Hc Hb K) as [v V].
    rewrite (has_fun _ _ _ _ X (S1 f u v K U V)), (has_fun _ _ _ _ Y (T1 f v u K V U)). ring.
Qed.

(** (x + y) + z = x + (y + z). *)
Lemma C54_assoc_pf : forall c a b d, In c all_classes -> instance_of c a -> instance_of c b -> instance_of c d ->
  exists ab bd s, o_add c a b = Ok ab /\ o_add c b d = Ok bd /\ o_add c ab d = Ok s /\ o_add c a bd = Ok s.
Proof.
  intros c a b d Hc Ha Hb Hd.
  destruct (C54_add_pf c a b Hc Ha Hb) as (ab & E & Hs & S1 & SL). destruct (C54_add_pf c b d Hc Hb Hd) as (bd & F & Ht & T1 & TL).
  destruct (C54_add_pf c ab d Hc Hs Hd) as (u & G & Hu & U1 & UL). destruct (C54_add_pf c a bd Hc Ha Ht) as (v & I & Hv & V1 & VL).
  exists ab, bd, u. split; [exact E|]. split; [exact F|]. split; [exact G|]. rewrite I. f_equal. apply (ext_num c); try assumption.
  - intros K. rewrite VL, UL, SL by exact K. reflexivity.
  - intros f x y K X Y. destruct (field_num c a f Hc Ha K) as [p P]. destruct (field_num c b f Hc Hb K) as [q Q]. destruct (field_num c d f Hc Hd K) as [r R].
    rewrite (has_fun _ _ _ _ X (V1 f _ _ K P (T1 f _ _ K Q R))), (has_fun _ _ _ _ Y (U1 f _ _ K (S1 f _ _ K P Q) R)). ring.
Qed.

(** x - x has only zeros, and adding it to any y changes nothing. *)
Lemma C54_zero_pf : forall c a b, In c all_classes -> instance_of c a -> instance_of c b ->
  exists z, o_sub c a a = Ok z /\ instance_of c z /\ (forall f, In f (numeric c) -> has z f 0) /\ o_add c b z = Ok b.
Proof.
  intros c a b Hc Ha Hb. destruct (C54_sub_pf c a a Hc Ha Ha) as (z & E & Hz & Z1). exists z. split; [exact E|]. split; [exact Hz|].
  assert (Z0 : forall f, In f (numeric c) -> has z f 0).
  { intros f K. destruct (field_num c a f Hc Ha K) as [x X]. specialize (Z1 f x x K X X). replace 0%R with (x - x)%R by ring. exact Z1. }
  split; [exact Z0|]. destruct (C54_add_pf c b z Hc Hb Hz) as (s & F & Hs & S1 & SL). rewrite F. f_equal. apply (ext_num c); try assumption.
  intros f x y K X Y. rewrite (has_fun _ _ _ _ X (S1 f y 0%R K Y (Z0 f K))). ring.
Qed.

(** k (x + y) = k x + k y and (k + l) x = k x + l x and (k l) x = k (l x) and 1 x = x. *)
Lemma C54_distr_pf : forall c a b k l, In c all_classes -> instance_of c a -> instance_of c b ->
  (exists ab ka kb s, o_add c a b = Ok ab /\ o_mul c a k = Ok ka /\ o_mul c b k = Ok kb /\ o_mul c ab k = Ok s /\ o_add c ka kb = Ok s) /\
  (exists ka la s, o_mul c a k = Ok ka /\ o_mul c a l = Ok la /\ o_add c ka la = Ok s /\ o_mul c a (k + l) = Ok s) /\
  (exists la s, o_mul c a l = Ok la /\ o_mul c la k = Ok s /\ o_mul c a (k * l) = Ok s) /\
  o_mul c a 1 = Ok a.
Proof.
  intros c a b k l Hc Ha Hb.
  destruct (C54_add_pf c a b Hc Ha Hb) as (ab & E & Hab & AB & ABL).
  destruct (C54_scale_pf c a k Hc Ha) as (ka & Eka & Hka & KA & KAL). destruct (C54_scale_pf c b k Hc Hb) as (kb & Ekb & Hkb & KB & KBL).
  destruct (C54_scale_pf c a l Hc Ha) as (la & Ela & Hla & LA & LAL).
  destruct (C54_scale_pf c ab k Hc Hab) as (s1 & Es1 & Hs1 & S1 & S1L). destruct (C54_add_pf c ka kb Hc Hka Hkb) as (t1 & Et1 & Ht1 & T1 & T1L).
  destruct (C54_add_pf c ka la Hc Hka Hla) as (s2 & Es2 & Hs2 & S2 & S2L). destruct (C54_scale_pf c a (k + l) Hc Ha) as (t2 & Et2 & Ht2 & T2 & T2L).
  destruct (C54_scale_pf c la k Hc Hla) as (s3 & Es3 & Hs3 & S3 & S3L). destruct (C54_scale_pf c a (k * l) Hc Ha) as (t3 & Et3 & Ht3 & T3 & T3L).
  destruct (C54_scale_pf c a 1 Hc Ha) as (s4 & Es4 & Hs4 & S4 & S4L).
  split; [|split; [|split]].
  - exists ab, ka, kb, s1. repeat (split; [assumption|]). rewrite Et1. f_equal. apply (ext_num c); try assumption.
    + intros K. rewrite T1L, KAL, S1L, ABL by exact K. reflexivity.
    + intros f x y K X Y. destruct (field_num c a f Hc Ha K) as [p P]. destruct (field_num c b f Hc Hb K) as [q Q].
      rewrite (has_fun _ _ _ _ X (T1 f _ _ K (KA f _ K P) (KB f _ K Q))), (has_fun _ _ _ _ Y (S1 f _ K (AB f _ _ K P Q))). ring.
  - exists ka, la, s2. repeat (split; [assumption|]). rewrite Et2. f_equal. apply (ext_num c); try assumption.
    + intros K. rewrite T2L, S2L, KAL by exact K. reflexivity.
    + intros f x y K X Y. destruct (field_num c a f Hc Ha K) as [p P].
      rewrite (has_fun _ _ _ _ X (T2 f _ K P)), (has_fun _ _ _ _ Y (S2 f _ _ K (KA f _ K P) (LA f _ K P))). ring.
  - exists la, s3. repeat (split; [assumption|]). rewrite Et3. f_equal. apply (ext_num c); try assumption.
    + intros K. rewrite T3L, S3L, LAL by exact K. reflexivity.
    + intros f x y K X Y. destruct (field_num c a f Hc Ha K) as [p P].
      rewrite (has_fun _ _ _ _ X (T3 f _ K P)), (has_fun _ _ _ _ Y (S3 f _ K (LA f _ K P))). ring.
  - rewrite Es4. f_equal. apply (ext_num c); try assumption. intros f x y K X Y. rewrite (has_fun _ _ _ _ X (S4 f _ K Y)). ring.
Qed.

(** s * x = x * s, except for the state of the dynamic vehicle. *)
Lemma C54_scalar_left_pf : forall c a k, In c all_classes -> c_name c <> "VehicleStateDyn" -> o_rmul c k a = o_mul c a k.
Proof. intros c a k Hc N. cases Hc; try (exfalso; apply N; reflexivity); reflexivity. Qed.

(** For which 2 * x is not x * 2: the lateral and rotational velocities are not
    multiplied. *)
Lemma C54_scalar_left_refuted_pf : exists a s t, instance_of cVehicleStateDyn a /\ o_mul cVehicleStateDyn a 2 = Ok s /\ o_rmul cVehicleStateDyn 2 a = Ok t /\ has s "vy" 2 /\ has t "vy" 1.
Proof.
  exists (mk cVehicleStateDyn [0; 0; 0; 1; 0; 1; 1]%R). eexists. eexists. split; [apply inst_mk; [nolights| reflexivity]|].
  split; [reflexivity|]. split; [reflexivity|]. unfold has, getattr. cbn. split; repeat f_equal; ring.
Qed.

(** What s * x is for that class, for every state. *)
Lemma C54_scalar_left_dyn_partial_pf : forall a k, instance_of cVehicleStateDyn a -> exists s, o_rmul cVehicleStateDyn k a = Ok s /\ instance_of cVehicleStateDyn s /\
  (forall f x, In f ["x"; "y"; "psi"; "vx"; "delta"] -> has a f x -> has s f (x * k)) /\ (forall f x, In f ["vy"; "dpsi"] -> has a f x -> has s f x).
Proof.
  intros a k Ha. inst a Ha. eexists. split; [reflexivity|]. split; [isinst|]. split; intros f x K; unfold has; cbn in K;
  repeat (destruct K as [<- | K]; [cbn; intros X; injection X as <-; reflexivity|]); destruct K.
Qed.

(** The kinematic part of the dynamic vehicle's state. *)
Lemma C54_to_vehicle_state_pf : forall a, instance_of cVehicleStateDyn a -> exists s, to_vehicle_state a = Ok s /\ instance_of cVehicleState s /\ forall f, In f (c_fields cVehicleState) -> getattr s f = getattr a f.
Proof.
  intros a Ha. inst a Ha. eexists. split; [reflexivity|]. split; [isinst|]. intros f K. cbn in K. repeat (destruct K as [<- | K]; [reflexivity|]). destruct K.
Qed.

Definition honest (k : model_kind) : Prop := k = KSpacecraft \/ k = KDynObstacle \/ k = KRocket \/ k = KSpaceship.

Lemma rot_back : forall th v, rot th (rot (- th) v) = v.
Proof.
  intros th [x y]. unfold rot. cbn [fst snd]. rewrite cos_neg, sin_neg. pose proof (sin2_cos2 th) as E. unfold Rsqr in E. f_equal.
  - transitivity ((sin th * sin th + cos th * cos th) * x)%R; [ring| rewrite E; ring].
  - transitivity ((sin th * sin th + cos th * cos th) * y)%R; [ring| rewrite E; ring].
Qed.

(** Spacecraft, dynamic obstacles, rockets and spaceships read back the velocity that
    was set, in either frame, and nothing else changes. *)
Lemma C55_set_get_pf : forall k w l st v om fr, honest k -> instance_of (state_class k) st ->
  exists st', set_velocity k st v om fr = Ok st' /\ instance_of (state_class k) st' /\ get_velocity k w l st' fr = Ok (v, om) /\
  forall f, ~ In f ["vx"; "vy"; "dpsi"] -> getattr st' f = getattr st f.
Proof.
  intros k w l st [vx vy] om fr Hk Hst.
  assert (U : forall st' f a b c, st' = setattr (setattr (setattr st "vx" a) "vy" b) "dpsi" c -> ~ In f ["vx"; "vy"; "dpsi"] -> getattr st' f = getattr st f).
  { intros st' f a b c -> N. cbn in N. rewrite !getattr_other; [reflexivity| intros ->; apply N; tauto ..]. }
  destruct Hk as [-> | [-> | [-> | ->]]]; inst st Hst; (destruct fr;
  [eexists; split; [reflexivity|]; split; [isinst|]; split; [reflexivity|]; intros f N; eapply U; [reflexivity| exact N]
  |eexists; split; [reflexivity|]; split; [isinst|]; split;
    [unfold get_velocity, get_full_velocity; cbn; f_equal; f_equal; exact (rot_back _ (vx, vy))| intros f N; eapply U; [reflexivity| exact N]]]).
Qed.

(** The kinematic vehicle keeps only the forward component: in its own frame the forward
    speed is read back, the rest is determined by the steering angle. *)
Lemma C55_vehicle_partial_pf : forall w l st v om, instance_of cVehicleState st ->
  exists st' d, set_velocity KVehicle st v om true = Ok st' /\ instance_of cVehicleState st' /\ has st "delta" d /\
  get_velocity KVehicle w l st' true = Ok ((fst v, fst v * tan d / w * l), fst v * tan d / w)%R /\ forall f, f <> "vx" -> getattr st' f = getattr st f.
Proof.
  intros w l st [vx vy] om Hst. inst st Hst. do 2 eexists. split; [reflexivity|]. split; [isinst|]. split; [reflexivity|]. split; [reflexivity|].
  intros f N. apply (getattr_other _ f "vx" _ N).
Qed.

(** A vehicle, pushed sideways and rotating after a crash, forgets both. *)
Lemma C55_vehicle_refuted_pf : exists st st' vel, instance_of cVehicleState st /\ set_velocity KVehicle st (1, 2)%R 3 true = Ok st' /\ get_velocity KVehicle 2 1 st' true = Ok vel /\
  vel = ((1, 0), 0)%R.
Proof.
  exists (mk cVehicleState [0; 0; 0; 1; 0]%R). eexists. eexists. split; [apply inst_mk; [nolights| reflexivity]|]. split; [reflexivity|]. split; [reflexivity|].
  cbn. rewrite tan_0. f_equal; [f_equal|]; lra.
Qed.

(** The dynamic vehicle ignores the rotation for every state: what is written is
    an attribute no one reads, and it is lost at the next operation on the state. *)
Lemma C55_vehicle_dyn_partial_pf : forall w l st v om fr, instance_of cVehicleStateDyn st ->
  exists st' d, set_velocity KVehicleDyn st v om fr = Ok st' /\ has st "dpsi" d /\ has st' "dtheta" om /\ get_velocity KVehicleDyn w l st' fr = Ok (v, d) /\
  (forall k s, o_mul cVehicleStateDyn st' k = Ok s -> getattr s "dtheta" = Err PyAttributeError).
Proof.
  intros w l st [vx vy] om fr Hst. inst st Hst. destruct fr; (do 2 eexists; split; [reflexivity|]; split; [reflexivity|]; split; [reflexivity|]; split;
  [| intros k s E; cbn in E; injection E as <-; reflexivity]).
  - reflexivity.
  - unfold get_velocity, get_full_velocity. cbn. f_equal. f_equal. exact (rot_back _ (vx, vy)).
Qed.

Lemma C55_vehicle_dyn_refuted_pf : exists st st', instance_of cVehicleStateDyn st /\ set_velocity KVehicleDyn st (1, 2)%R 3 true = Ok st' /\ get_velocity KVehicleDyn 2 1 st' true = Ok ((1, 2), 0)%R /\
  ~ instance_of cVehicleStateDyn st'.
Proof.
  exists (mk cVehicleStateDyn [0; 0; 0; 1; 0; 0; 0]%R). eexists. split; [apply inst_mk; [nolights| reflexivity]|]. split; [reflexivity|]. split; [reflexivity|].
  intros (_ & H & _). cbn in H. discriminate H.
Qed.

(** The pedestrian moves forward at the speed it was told to rotate with, and keeps
    its old rotation. *)
Lemma C55_pedestrian_refuted_pf : exists st, instance_of cPedestrianState st /\ forall w l v om, exists st' d, set_velocity KPedestrian st v om true = Ok st' /\
  has st "dpsi" d /\ get_velocity KPedestrian w l st' true = Ok ((om, snd v), d).
Proof.
  exists (mk cPedestrianState [0; 0; 0; 1; 0; 0]%R). split; [apply inst_mk; [nolights| reflexivity]|]. intros w l v om. do 2 eexists. repeat split; reflexivity.
Qed.

(** The differential drive reports no velocity whatever was set. *)
Lemma C55_diff_drive_refuted_pf : forall w l st v om fr, exists st', set_velocity KDiffDrive st v om fr = Ok st' /\ st' = st /\ get_velocity KDiffDrive w l st' fr = Ok ((0, 0), 0)%R.
Proof. intros. eexists. repeat split; reflexivity. Qed.

(** Reading the pose never fails on a state of any model, and depends only on position
    and heading; so setting a velocity does not move a model. *)
Lemma C55_pose_kept_pf : forall k st v om fr st', instance_of (state_class k) st -> set_velocity k st v om fr = Ok st' ->
  exists x y th, has st "x" x /\ has st "y" y /\ has st "psi" th /\ extract_pose_from_state st = Ok ((x, y), th) /\ extract_pose_from_state st' = Ok ((x, y), th).
Proof.
  intros k st [vx vy] om fr st' Hst E. destruct k; inst st Hst; destruct fr; cbn in E; injection E as <-; do 3 eexists; (repeat split; reflexivity).
Qed.
