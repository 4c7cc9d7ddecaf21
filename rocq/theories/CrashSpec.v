(** What a picture of a collision should show. *)
From Coq Require Import Reals List Bool Arith.
From Verif Require Import Base R2 CollModel CollSpec CrashModel.
Import ListNotations.
Open Scope R_scope.

Section S.
Context {Sh Loc : Type} (sh : shapely Sh) (exterior : Sh -> result (list vec)) (entries : list (nat * vec)).

(** The centre of a player: where the log says it is; what is not in the log, as an obstacle
    of the environment, has the centre of its shape. *)
Definition centred (p : nat) (pr : player_report (Sh := Sh) Loc) (c : vec) : Prop :=
  aget Nat.eqb entries p = Some c \/ (aget Nat.eqb entries p = None /\ c = centroid sh (pr_footprint pr)).

(** What is shown of player [p], the [i]-th of the report, in a collision at [P]: velocities at
    a scale of 3 to 10. *)
Inductive shown (P : vec) (i p : nat) (pr : player_report (Sh := Sh) Loc) (c : vec) : mark Loc -> Prop :=
| sh_outline path : exterior (pr_footprint pr) = Ok path -> shown P i p pr c (Outline i path)
| sh_name : shown P i p pr c (NameText c p)
| sh_before v w : pr_velocity pr = (v, w) -> shown P i p pr c (BeforeArrow c (3 / 10 * fst v, 3 / 10 * snd v))
| sh_after v w : pr_velocity_after pr = Some (v, w) -> shown P i p pr c (AfterArrow c (Some (3 / 10 * fst v, 3 / 10 * snd v)))
| sh_after_nan : pr_velocity_after pr = None -> shown P i p pr c (AfterArrow c None)
| sh_turn : shown P i p pr c (TurnArrow (fst c - 1 / 10, snd c) (fst c + 1 / 10, snd c))
| sh_spin v w : pr_velocity pr = (v, w) -> shown P i p pr c (BeforeSpin (fst c, snd c + 4 / 10) w)
| sh_spin_after v w : pr_velocity_after pr = Some (v, w) -> shown P i p pr c (AfterSpin (fst c, snd c + 2 / 10) (Some w))
| sh_spin_nan : pr_velocity_after pr = None -> shown P i p pr c (AfterSpin (fst c, snd c + 2 / 10) None)
| sh_contact v w d : pr_velocity pr = (v, w) -> d = contact v w c P -> shown P i p pr c (ContactArrow i P (3 / 10 * fst d, 3 / 10 * snd d))
| sh_area l s path : In (l, s) (pr_locations pr) -> exterior s = Ok path -> shown P i p pr c (Area path)
| sh_area_name l s : In (l, s) (pr_locations pr) -> shown P i p pr c (AreaName (centroid sh s) l).
End S.

(** The report with all players turning the other way round, before and after. *)
Definition other_way_round {Sh Loc} (r : report (Sh := Sh) Loc) : report (Sh := Sh) Loc :=
  mkRep (map (fun e => (fst e, option_map (fun pr => mkPR (pr_locations pr) (pr_at_fault pr) (pr_footprint pr)
                                 (fst (pr_velocity pr), - snd (pr_velocity pr)) (option_map (fun va => (fst va, - snd va)) (pr_velocity_after pr)) (pr_energy_delta pr)) (snd e))) (rep_players r))
        (rep_point r) (rep_normal r) (rep_time r).
