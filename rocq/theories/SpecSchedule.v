(** * SpecSchedule: following a table of conflict levels

    The table gives for each listed name the level on day 0, 1, 2, ... *)

From Verif Require Import Base State Flee DataTable Spawning InputGeography Api SpecHistory.
Local Open Scope Q_scope.

(** Levels above this one count as conflict. *)
Definition conflict_from : Q := 1 # 1000000.

(** A row of the list of location changes is due on day [t]. *)
Definition due (t : Z) (r : row) : Prop :=
  exists c, nth_error r 2 = Some c /\ parse_Z (sval c) = Some t.

(** Calls that never start or end a conflict anywhere (closures may close camps, see below) *)
Definition keeps_conflicts (c : op) : bool :=
  match c with
  | OCloseCamp _ _ | OOpenCamp _ _ | OChangeLocationType _ _ | OAddConflictZone _ _ _
  | ORemoveConflictZone _ _ | OSetConflictIntensity _ _ _ | OAddNewConflictZones _ _ _ => false
  | _ => true
  end.
(** When border closures are enacted, no closure is one of a camp. *)
Definition camps_stay (S : settings) (c : op) (e : eco) : Prop :=
  match c with
  | OEnactBorderClosures _ _ _ =>
      Forall (fun k => c_kind k <> "camp"%string /\ c_kind k <> "idpcamp"%string) (e_closures e)
  | _ => True
  end.

(** [scheduled ig t h t']: the program [h] calls AddNewConflictZones for the days
    [t], [t+1], ..., [t'-1] in this order, with the table of [ig], without flood rules and
    on days on which no location change is due; between these calls it may do anything that
    neither starts nor ends conflicts. *)
Inductive scheduled (ig : igeo) : Z -> history -> Z -> Prop :=
| sched_end t : scheduled ig t [] t
| sched_day t S h t' changes :
    s_FloodRulesEnabled S = false -> ig_location_changes ig = Some changes ->
    (forall r, In r changes -> ~ due t r) -> scheduled ig (t + 1) h t' ->
    scheduled ig t ((S, OAddNewConflictZones true ig t) :: h) t'
| sched_other t S c h t' :
    keeps_conflicts c = true -> scheduled ig t h t' -> scheduled ig t ((S, c) :: h) t'.

(** On day [t] the level of the location is that of the first day of the present
    uninterrupted period of conflict; outside such periods there is no conflict. *)
Definition as_scheduled (vals : list Q) (t : nat) (level : Q) : Prop :=
  exists v, nth_error vals t = Some v /\
    (conflict_from < v -> exists s w, (s <= t)%nat /\ nth_error vals s = Some w /\ level = w /\
       (forall d u, (s <= d <= t)%nat -> nth_error vals d = Some u -> conflict_from < u) /\
       (forall d u, s = Datatypes.S d -> nth_error vals d = Some u -> u < conflict_from)) /\
    (v < conflict_from -> level <= 0).
