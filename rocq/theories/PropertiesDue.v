(** * PropertiesDue: C76 (changes and conflicts that the input tables date)

    Vocabulary: SpecColumns.v ([ordered], [with_changes], [later_zone]) *)

From Verif Require Import Base State Flee InputGeography Api SpecHistory SpecColumns Defaults ExampleRun NetworkWitness DueProofs ColumnWitness.
Local Open Scope string_scope.
Local Open Scope Q_scope.
Local Open Scope list_scope.
Local Opaque run.

(** C76. AddNewConflictZones for day t first makes exactly the changes of location types
    that location_changes.csv orders for that day, in the order of the file, and then does
    what it does without that file. *)
Theorem C76_changes : forall o S f ig t e g e' g',
  step o S (OAddNewConflictZones f ig t) e g = Ok (e', g') <->
  exists rows calls e1, ig_location_changes ig = Some rows /\ ordered S t rows calls /\ run o calls e g = Ok (e1, g) /\
    step o S (OAddNewConflictZones f (with_changes ig []) t) e1 g = Ok (e', g').
Proof. exact changes_first. Qed.
Print Assumptions C76_changes.
Example C76_changes_example :
  ordered ex_S 3 due_rows [(ex_S, OChangeLocationType (PS "B" 0) "camp"); (ex_S, OChangeLocationType (PS "C" 0) "town")] /\
  rmap (fun r => map (fun l => (l_camp l, l_town l)) (e_locations (fst r)))
    (step ex_oracle ex_S (OAddNewConflictZones false (with_changes tables due_rows) 3) (net_eco tables) (net_rng tables)) =
    Ok [(false, false); (true, false); (false, true)] /\
  map (fun l => (l_camp l, l_town l)) (e_locations (net_eco tables)) = [(false, false); (false, true); (true, false)].
Proof. split; [exact due_calls|exact due_happens]. Qed.

(** Without a file of conflict levels, the conflict dates of locations.csv should start the
    conflicts.  They never do: a conflict zone with a later date is stored without conflict,
    and AddNewConflictZones has no effect, whatever days it is called for. *)
Theorem C76_dates_refuted : forall o e g0 S factor ig changes g e1 g1 ig1 S' days,
  reachable o e g0 -> store_input S o factor ig changes e g = Ok (e1, g1, ig1) -> s_FloodRulesEnabled S' = false ->
  (forall rows t, ig_location_changes ig1 = Some rows -> In t days -> ordered S' t rows []) ->
  run o (map (fun t => (S', OAddNewConflictZones false ig1 t)) days) e1 g1 = Ok (e1, g1) /\
  forall n r, nth_error (ig_locations ig) n = Some r -> later_zone r ->
    exists l, nth_error (e_locations e1) (List.length (e_locations e) + n) = Some l /\ sval (l_name l) = sval (hd (PS "" 0) r) /\
      l_conflict l = -1.
Proof. exact dates_ignored. Qed.
Print Assumptions C76_dates_refuted.
Example C76_dates_example : reachable ex_oracle empty_eco ex_draws /\
  store_input ex_S ex_oracle 10 tables [] empty_eco ex_draws = Ok (net_eco tables, net_rng tables, result_tables (net_of tables)) /\
  (s_FloodRulesEnabled ex_S = false /\
   forall rows t, ig_location_changes (result_tables (net_of tables)) = Some rows -> ordered ex_S t rows []) /\
  exists r, nth_error (ig_locations tables) 1 = Some r /\ later_zone r.
Proof. split; [apply empty_reachable|]. split; [exact (net_stored tables net_ok)|]. split; [exact later_never|exact later_row]. Qed.
