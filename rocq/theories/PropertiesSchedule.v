(** * PropertiesSchedule: C40

    Conflict zones that follow a table of levels.  The vocabulary ([scheduled],
    [camps_stay], [as_scheduled]) is in SpecSchedule.v, [first_named] in SpecZones.v. *)

From Verif Require Import Base State Flee Spawning InputGeography Api SpecHistory SpecZones SpecSchedule
  Defaults ExampleRun ClosureWitness Schedule ScheduleWitness.
Local Open Scope string_scope.
Local Open Scope Q_scope.
Local Open Scope list_scope.
Local Opaque run.

(** C40. If AddNewConflictZones has been called for days 0, ..., t, then the first location
    of a listed name is a conflict zone exactly if its entry for day t is above the
    threshold, provided that it was none before and no entry equals the threshold. *)
Theorem C40_zones : forall o ig n vals i h t e g e' g' l v, reachable o e g ->
  NoDup (map fst (ig_conflicts ig)) -> In (n, vals) (ig_conflicts ig) ->
  (forall d u, nth_error vals d = Some u -> ~ u == conflict_from) ->
  first_named e n i l -> l_conflict l <= 0 ->
  scheduled ig 0 h (Z.of_nat t + 1) -> during camps_stay o h e g -> run o h e g = Ok (e', g') ->
  nth_error vals t = Some v ->
  exists l', nth_error (e_locations e') i = Some l' /\ (0 < l_conflict l' <-> conflict_from < v).
Proof. exact schedule_zone. Qed.
Print Assumptions C40_zones.

(** Its level is that of the day on which the present period of conflict started. *)
Theorem C40_levels : forall o ig n vals i h t e g e' g' l, reachable o e g ->
  NoDup (map fst (ig_conflicts ig)) -> In (n, vals) (ig_conflicts ig) ->
  (forall d u, nth_error vals d = Some u -> ~ u == conflict_from) ->
  first_named e n i l -> l_conflict l <= 0 ->
  scheduled ig 0 h (Z.of_nat t + 1) -> during camps_stay o h e g -> run o h e g = Ok (e', g') ->
  exists l', nth_error (e_locations e') i = Some l' /\ as_scheduled vals t (l_conflict l').
Proof. exact schedule_followed. Qed.
Print Assumptions C40_levels.

(** Other locations keep their level; *)
Theorem C40_others : forall o ig i h t t' e g e' g' l, reachable o e g ->
  NoDup (map fst (ig_conflicts ig)) -> scheduled ig t h t' ->
  nth_error (e_locations e) i = Some l -> ~ In (sval (l_name l)) (map fst (ig_conflicts ig)) ->
  during camps_stay o h e g -> run o h e g = Ok (e', g') ->
  exists l', nth_error (e_locations e') i = Some l' /\ l_conflict l' = l_conflict l.
Proof. exact schedule_rest. Qed.
Print Assumptions C40_others.

(** and the table read from a file has one entry per name. *)
Theorem C40_table : forall rows tb, read_conflicts rows = Ok tb -> NoDup (map fst tb).
Proof. exact conflicts_nodup. Qed.
Print Assumptions C40_table.

(** An entry equal to the threshold does not end a conflict, *)
Theorem C40_exact_value_refuted : exists o ig e g h e' g' l', reachable o e g /\
  (exists l, first_named e "B" 1 l /\ l_conflict l <= 0) /\ ig_conflicts ig = [("B", [1; conflict_from])] /\
  scheduled ig 0 h 2 /\ during camps_stay o h e g /\ run o h e g = Ok (e', g') /\
  nth_error (e_locations e') 1 = Some l' /\ 0 < l_conflict l'.
Proof. exact exact_value. Qed.
Print Assumptions C40_exact_value_refuted.

(** and a location that is a conflict zone from the start stays one although the table says
    otherwise. *)
Theorem C40_initial_zone_refuted : exists o ig e g h e' g' l', reachable o e g /\
  ig_conflicts ig = [("A", [0; 0])] /\
  scheduled ig 0 h 2 /\ during camps_stay o h e g /\ run o h e g = Ok (e', g') /\
  nth_error (e_locations e') 0 = Some l' /\ sval (l_name l') = "A" /\ 0 < l_conflict l'.
Proof. exact initial_zone. Qed.
Print Assumptions C40_initial_zone_refuted.

Example C40_example :
  let vals := [0; 5; 7; 0; 3] in let ig := table "B" vals in
  reachable ex_oracle (then_eco []) (then_rng []) /\ NoDup (map fst (ig_conflicts ig)) /\ In ("B", vals) (ig_conflicts ig) /\
  forallb (fun u => negb (Qeq_bool u conflict_from)) vals = true /\
  (exists l, first_named (then_eco []) "B" 1 l /\ l_conflict l <= 0) /\
  scheduled ig 0 (table_days ig 5) 5 /\ during camps_stay ex_oracle (table_days ig 5) (then_eco []) (then_rng []) /\
  map (levels "B" vals) [1; 2; 3; 4; 5]%nat = [Ok [1; -1; -1]; Ok [1; 5; -1]; Ok [1; 5; -1]; Ok [1; -1; -1]; Ok [1; 3; -1]].
Proof.
  cbv zeta. split; [exact reach0|]. split; [repeat constructor; intros []|]. split; [now left|]. split; [reflexivity|].
  split; [exact table_first|]. split; [apply (days_scheduled "B" _ 5)|]. split; [apply days_stay; reflexivity|].
  vm_compute. reflexivity.
Qed.
