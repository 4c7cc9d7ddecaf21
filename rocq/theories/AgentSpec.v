(** Vocabulary of the statements on agents, and a concrete world for examples. *)
From Coq Require Import QArith Qcanon ZArith List Bool Arith Permutation.
From Verif Require Import Base Num SeqModel SeqSpec SimulatorModel VehState CtrlModel CtrlSpec AgentModel.
Import ListNotations.
Open Scope Qc_scope.

Section LF.
Context {X F PP G Lane : Type} (env : lf_env X PP G Lane).

(** [lf_run a0 os a cmds]: agent [a0] is [a] after being asked with the
    observations [os] (oldest first), answering [cmds]. *)
Inductive lf_run (a0 : lf_agent (PP := PP) (Lane := Lane)) : list (simobs X F) -> lf_agent (PP := PP) (Lane := Lane) -> list (vcmd * lights) -> Prop :=
| lf_run_nil : lf_run a0 [] a0 []
| lf_run_ask os a cmds o a' c : lf_run a0 os a cmds -> lf_get_commands env a o = Ok (a', c) ->
    lf_run a0 (os ++ [o]) a' (cmds ++ [c]).

(** A freshly made agent, after on_episode_init. *)
Definition lf_started (order : list lights) lane vp geo_ sb pp n (a : lf_agent (PP := PP) (Lane := Lane)) : Prop :=
  exists a0, lf_new env order lane vp geo_ sb pp = Ok a0 /\ a = lf_init a0 n.

(** The speed behaviour reports an emergency (resp. reference [r], none) on an
    observation. *)
Definition detects_emergency (sp : sb_param) (n : player) (o : simobs X F) : Prop :=
  exists r, get_speed_ref (lf_kin env) sp n (Some (o_players o)) = Ok (r, true).
Definition asks_speed (sp : sb_param) (n : player) (o : simobs X F) (r : Qc) : Prop :=
  exists e, get_speed_ref (lf_kin env) sp n (Some (o_players o)) = Ok (r, e).
End LF.

(** The iteration orders of the frozenset LightsValues. *)
Definition lights_order (l : list lights) : Prop := Permutation l [NoLights; HeadLights; TurnLeft; TurnRight; Hazard].

(** ** A concrete world: states are VehicleStates; all headings are as given
    and relative poses are differences (the examples use psi = 0 for me). *)
Definition ex_kin : kin vstate :=
  mkKin (fun a b => Some (mkRel (vs_x b - vs_x a) (vs_y b - vs_y a) (vs_psi b - vs_psi a))) (fun a => Some (vs_vx a)).
Definition ex_env : lf_env vstate nat unit unit :=
  mkLF ex_kin (fun x => Some (vs_vx x, vs_delta x)) (fun _ x => Ok (vs_x x)) (fun _ => 7%nat)
       (fun pp path _ _ _ => match path with None => Err PyRuntimeError | Some _ => Ok (qn pp) end).
Definition ex_order : list lights := [NoLights; HeadLights; TurnLeft; TurnRight; Hazard].
Definition ex_order2 : list lights := [Hazard; HeadLights; TurnLeft; TurnRight; NoLights].
Definition ex_me : vstate := mkVS 0 0 0 (qz 10) 0.
(** Oncoming at 5 m. *)
Definition ex_front : vstate := mkVS (qz 5) 0 (qz 3) (qz 10) 0.
Definition ex_free (t : Qc) : simobs vstate unit := mkObs [(0%nat, (ex_me, tt))] t.
Definition ex_danger (t : Qc) : simobs vstate unit := mkObs [(0%nat, (ex_me, tt)); (1%nat, (ex_front, tt))] t.
(** Same direction, 6 m ahead, at 4 m/s. *)
Definition ex_slow (t : Qc) : simobs vstate unit := mkObs [(0%nat, (ex_me, tt)); (1%nat, (mkVS (qz 6) 0 0 (qz 8) 0, tt))] t.
