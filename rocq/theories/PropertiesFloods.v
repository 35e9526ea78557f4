(** * PropertiesFloods: C64, C65

    Flood levels of the locations and flood-driven spawning.  Vocabulary: SpecFloods.v
    ([own_attributes], [level_on], [forecast_row], [only_attribute], [flood_amount]) and
    SpecSpawn.v. *)

From Verif Require Import Base State Moving Flee DataTable Spawning InputGeography Api SpecHistory SpecChoice SpecReports SpecSpawn SpecFloods
  Lemmas Defaults ExampleRun ClosureWitness ZoneWitness SpawnWitness NetworkWitness FloodProofs FloodWitness.
Local Open Scope string_scope.
Local Open Scope Q_scope.
Local Open Scope list_scope.
Local Opaque run.

(** C64. UpdateLocationAttributes gives every location the value of the day from the
    table of the attribute, and changes nothing else. *)
Theorem C64_updated : forall ig k t e e',
  update_attributes ig k t e = Ok e' -> own_attributes e -> (0 <= t)%Z ->
  exists table, dict_get k (ig_attributes ig) = Some table /\ only_attribute k (value_on k table t) e e'.
Proof. exact attributes_updated. Qed.
Print Assumptions C64_updated.

(** In a flood simulation AddNewConflictZones gives every location its flood level of
    the day, with the forecaster also its forecast, and leaves other attributes. *)
Theorem C64_flood_day : forall S cf ig t e e',
  s_FloodRulesEnabled S = true -> own_attributes e -> (0 <= t)%Z ->
  add_new_conflict_zones S cf ig t e = Ok e' ->
  exists levels, dict_get "flood_level" (ig_attributes ig) = Some levels /\
  forall i l, nth_error (e_locations e) i = Some l -> exists l' d d',
    nth_error (e_locations e') i = Some l' /\ lname l' = lname l /\ attributes_of e l d /\ attributes_of e' l' d' /\
    (exists z, dict_get "flood_level" d' = Some (VInt z) /\ level_on levels t (lname l) z) /\
    (s_FloodForecaster S = true -> exists table row, dict_get "forecast_flood_levels" (ig_attributes ig) = Some table /\
       dict_get "forecast_flood_levels" d' = Some (VList row) /\ forecast_row table (lname l) row) /\
    (forall k, k <> "flood_level" -> (s_FloodForecaster S = false \/ k <> "forecast_flood_levels") -> dict_get k d' = dict_get k d).
Proof. exact flood_day. Qed.
Print Assumptions C64_flood_day.

(** Locations read from the input tables have own attributes, *)
Theorem C64_stored_own : forall o e g0 S factor ig changes g e' g' ig',
  reachable o e g0 -> own_attributes e ->
  store_input S o factor ig changes e g = Ok (e', g', ig') -> own_attributes e'.
Proof. exact stored_own. Qed.
Print Assumptions C64_stored_own.

(** and keep them as long as no locations are added. *)
Theorem C64_own_kept : forall o h e g e' g',
  run o h e g = Ok (e', g') -> List.length (e_locations e') = List.length (e_locations e) ->
  own_attributes e -> own_attributes e'.
Proof. exact own_kept. Qed.
Print Assumptions C64_own_kept.

(** Locations added without attributes share one dictionary, so that all of them get the
    value of the last one: without the assumption C64_updated is false. *)
Theorem C64_shared_refuted : ~ (forall o e g ig k t e',
  reachable o e g -> update_attributes ig k t e = Ok e' -> (0 <= t)%Z ->
  exists table, dict_get k (ig_attributes ig) = Some table /\ only_attribute k (value_on k table t) e e').
Proof. exact shared_false. Qed.
Print Assumptions C64_shared_refuted.

(** In a network read from tables, on days 1 and 2 *)
Example C64_example :
  reachable ex_oracle (net_eco flood_tables) (net_rng flood_tables) /\ own_attributes (net_eco flood_tables) /\
  s_FloodRulesEnabled flood_day_S = true /\ s_FloodForecaster flood_day_S = true /\
  rmap (attribute_at "flood_level") (add_new_conflict_zones flood_day_S true flood_tables 1 (net_eco flood_tables)) =
    Ok [Some (VInt 2); Some (VInt 0); Some (VInt 0)] /\
  rmap (attribute_at "forecast_flood_levels") (add_new_conflict_zones flood_day_S true flood_tables 1 (net_eco flood_tables)) =
    Ok [Some (VList [0; 0; 0]%Z); Some (VList [0; 0; 0]%Z); Some (VList [1; 0; 3]%Z)] /\
  rmap (attribute_at "flood_level") (update_attributes flood_tables "flood_level" 2 (net_eco flood_tables)) =
    Ok [Some (VInt 1); Some (VInt 0); Some (VInt 3)].
Proof.
  split; [exact (net_reachable _ flood_net_ok)|]. split; [exact (net_own _ flood_net_ok)|]. repeat split; vm_compute; reflexivity.
Qed.

(** C65. Flood-driven spawning: each flooded location gets the number of fresh agents
    that the settings give for its flood level, other locations none; nothing else
    changes, and the number reported is the sum. *)
Theorem C65_amounts : forall o S dm t sp d e g n sp' d' e' g',
  reachable o e g -> rng_ok g -> s_conflict_driven_spawning S = false -> s_flood_driven_spawning S = true ->
  String.eqb (lower (s_flood_spawn_mode S)) "poisson" = false ->
  spawn_daily_displaced S dm t sp d e g = Ok (n, sp', d', e', g') ->
  sp' = sp /\ d' = d /\ exists ns,
  Forall2 (fun l n => exists a, attributes_of e l a /\ flood_amount S a l n) (e_locations e) ns /\ n = sumZ ns /\
  exists new, grown (s_TakeFromPopulation S) new e e' /\
    fresh_in dm e (flat_map (fun im => repeat (fst im) (Z.to_nat (snd im))) (combine (seq 0 (List.length ns)) ns)) new.
Proof. exact flood_spawning. Qed.
Print Assumptions C65_amounts.

(** On day 2 place A, at level 1, sends 3 people and place C, at level 3, one. *)
Example C65_example :
  reachable ex_oracle (flooded flood_tables 2 (net_eco flood_tables)) (net_rng flood_tables) /\ rng_ok (net_rng flood_tables) /\
  s_conflict_driven_spawning flood_day_S = false /\ s_flood_driven_spawning flood_day_S = true /\
  String.eqb (lower (s_flood_spawn_mode flood_day_S)) "poisson" = false /\
  rmap (fun r => match r with (n, _, _, e, _) => (n, map a_location (e_agents e), map l_numAgents (e_locations e)) end)
    (spawn_daily_displaced flood_day_S [] 2 (Spawn 0 0) (ex_table 0) (flooded flood_tables 2 (net_eco flood_tables)) (net_rng flood_tables)) =
  Ok (4%Z, [PLoc 0; PLoc 0; PLoc 0; PLoc 2], [3; 0; 1]%Z).
Proof.
  split; [apply flooded_reached; [exact (net_reachable _ flood_net_ok)|vm_compute; reflexivity]|].
  split; [exact net_rng_ok|]. repeat split; vm_compute; reflexivity.
Qed.
