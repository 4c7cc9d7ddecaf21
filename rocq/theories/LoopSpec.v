(** Vocabulary of the statements on simulations of the models of the package. *)
From Coq Require Import String QArith Qcanon Qreals Reals List Bool Arith.
From Verif Require Import Base R2 SeqModel GeoModel DataModel DataSpec LaneModel BodyModel DynModel DynSpec DrawModel CollModel CollSpec BuildModel BuildSpec ImpactModel ImpactSpec SimulatorModel SimulatorSpec LoopModel.
Import ListNotations.
Open Scope R_scope.
Local Open Scope string_scope.

(** The same model, in another state and perhaps collided. *)
Definition same_make (m m' : model) : Prop :=
  mo_kind m' = mo_kind m /\ mo_XT m' = mo_XT m /\ mo_geo m' = mo_geo m /\ mo_params m' = mo_params m /\ mo_shape m' = mo_shape m /\ mo_tyres m' = mo_tyres m.
(** [o] has all the components of the states of kind [k], and they are numbers. *)
Definition complete (k : model_kind) (o : obj) : Prop := forall f, In f (c_fields (state_class k)) -> exists r, has o f r.

(** A state of a model of kind [k]: an object of its class.  A collision of a dynamic
    vehicle adds an attribute. *)
Definition fits (k : model_kind) (o : obj) : Prop := complete k o /\ (k <> KVehicleDyn -> instance_of (state_class k) o).

(** What a collision may do to a model. *)
Definition hit (m m' : model) : Prop := same_make m m' /\ stays m m' /\ (fits (mo_kind m) (mo_state m) -> fits (mo_kind m') (mo_state m')).

(** *** Integration *)

(** One way to integrate: an explicit Runge-Kutta method on arrays with the steps [hs]. *)
Definition array_add (a b : list R) : list R := map (fun ab => fst ab + snd ab) (combine a b).
Definition array_scale (k : R) (a : list R) : list R := map (Rmult k) a.
Definition rk_array (tab : list (list R) * list R) (hs : list R) (f : list R -> result (list R)) (dt : R) (y0 : list R) : result (list R) :=
  match rk_solve array_add array_scale (fun y => match f y with Ok r => Some r | Err _ => None end) tab y0 hs with Some y => Ok y | None => Err PyRuntimeError end.
(** [r] is the model [m] in the state [x], or an exception if there is none. *)
Definition moves_to (m : model) (x : option obj) (r : result model) : Prop := match x with Some o => r = Ok (set_state m o) | None => r = Err PyRuntimeError end.

(** Another way: [y1] is reached from [y0] in the time [T] by a solution of y' = f y. *)
Definition solves (f : list R -> result (list R)) (T : R) (y0 y1 : list R) : Prop :=
  exists path rates : R -> list R, path 0 = y0 /\ path T = y1 /\ (forall t, 0 <= t <= T -> List.length (path t) = List.length y0) /\
    (forall t, 0 <= t < T -> f (path t) = Ok (rates t)) /\ forall i, (i < List.length y0)%nat -> evolves (fun t => nth i (path t) 0) (fun t => nth i (rates t) 0) T.
(** An integrator without errors. *)
Definition exact (solve_ivp : (list R -> result (list R)) -> R -> list R -> result (list R)) : Prop :=
  forall f T y0 y1, solve_ivp f T y0 = Ok y1 -> solves f T y0 y1.

(** *** Limits *)

(** The component [f] of the states of [m] is kept between [lo] and [hi] at all times:
    the steering angles of vehicles and the nozzles of rockets and spaceships. *)
Definition held (m : model) (f : string) (lo hi : R) : Prop :=
  match mo_kind m, mo_params m with
  | (KVehicle | KVehicleDyn), PVehicle _ _ d _ => f = "delta" /\ lo = - d /\ hi = d
  | KRocket, PRocket _ _ _ _ _ d _ => f = "phi" /\ (lo, hi) = d
  | KSpaceship, PSpaceship _ _ _ _ _ d _ => f = "delta" /\ (lo, hi) = d
  | _, _ => False
  end.
(** It is kept there until there is a collision: speeds. *)
Definition governed (m : model) (f : string) (lo hi : R) : Prop :=
  match mo_kind m, mo_params m with
  | KVehicle, PVehicle vx _ _ _ => f = "vx" /\ (lo, hi) = vx
  | KPedestrian, PPedestrian vx _ _ => f = "vx" /\ (lo, hi) = vx
  | KSpacecraft, PSpacecraft _ _ w => f = "dpsi" /\ (lo, hi) = w
  | KDynObstacle, PObstacle vx _ w _ => (f = "vx" \/ f = "vy") /\ (lo, hi) = vx \/ f = "dpsi" /\ (lo, hi) = w
  | _, _ => False
  end.
(** Burning fuel can only make it lighter. *)
Definition burns (m : model) (m_v : R) : Prop :=
  match mo_kind m, mo_params m with
  | KRocket, PRocket _ _ mv ct F _ _ | KSpaceship, PSpaceship _ _ mv ct F _ _ => m_v = mv /\ 0 <= ct /\ 0 <= fst F <= snd F
  | _, _ => False
  end.
Definition keeps (x : obj) (f : string) (lo hi : R) : Prop := exists r, has x f r /\ lo <= r <= hi.

(** *** Runs *)

Section Runs.
Context {W : world}.
(** The state [x] of player [p] at the time [t], as found in the log afterwards. *)
Definition logged (sf : st W) (p : player) (t : Qc) (x : w_X W) : Prop := exists pl, dget (c_log (cx sf)) p = Some pl /\ In (t, x) (iter (pl_states pl)).
(** Player [p] takes part in the simulation of [c] with the model [m]. *)
Definition plays (c : ctx W) (p : player) (m : w_M W) : Prop := dget (c_models c) p = Some m.
(** [m] is the model of [p] between the motion and the collisions of the iteration from
    [s] to [s']. *)
Definition moved (s s' : st W) (p : player) (m : w_M W) : Prop :=
  active s p /\ (exists u m0, SimulatorSpec.moves s' p = SimulatorSpec.moves s p ++ [(time s, u, m0, m)])%list \/ ~ active s p /\ model_of s p = Some m.
(** A report that names [p], up to the time [t]. *)
Definition named_by (sf : st W) (p : player) (t : Qc) : Prop := exists r, In r (c_reports (cx sf)) /\ In p (r_players r) /\ (r_time r <= t)%Qc.
(** A collision of [p] is among the calls [l]: there is a report that names it, or it is a
    moving obstacle that was resolved against a static one, which is not reported. *)
Definition touched (l : list (event W)) (p : player) : Prop :=
  (exists r, In r (expected_reports l) /\ In p (r_players r)) \/ exists i t out, In (EEnv p i t true out) l.
End Runs.

(** *** Sums over the models *)
Definition sum_up {A} (f : model -> A) (zero : A) (plus : A -> A -> A) (ms : list (player * model)) : A := fold_right (fun pm acc => plus (f (snd pm)) acc) zero ms.
Definition mass_of (m : model) : R := match ge_m (mo_geo m) with Some r => r | None => 0 end.
Definition inertia_of (m : model) : R := match ge_Iz (mo_geo m) with Some r => r | None => 0 end.
Definition velocity_of (m : model) : vec * R := or_else ((0, 0), 0) (velocity m).
Definition place_of (m : model) : vec := or_else (0, 0) (bind (getnum (mo_state m) "x") (fun x => bind (getnum (mo_state m) "y") (fun y => Ok (x, y)))).
Definition total_momentum : list (player * model) -> vec := sum_up (fun m => momentum (mass_of m) (fst (velocity_of m))) (0, 0) vadd.
Definition total_energy : list (player * model) -> R := sum_up (fun m => energy (mass_of m) (inertia_of m) (fst (velocity_of m)) (snd (velocity_of m))) 0 Rplus.
Definition total_spin (o : vec) : list (player * model) -> R :=
  sum_up (fun m => ang_momentum (mass_of m) (inertia_of m) (place_of m) (fst (velocity_of m)) (snd (velocity_of m)) o) 0 Rplus.
(** A body that collisions can push freely, of finite mass. *)
Definition free_body (m : model) : Prop := (mo_kind m = KSpacecraft \/ mo_kind m = KDynObstacle \/ mo_kind m = KRocket \/ mo_kind m = KSpaceship) /\
  exists mass iz, weighs m mass iz (ge_e (mo_geo m)).
