(** * Defaults: the settings of an empty settings file, and values used in examples *)

From Verif Require Import Base State.
Local Open Scope Q_scope.
Local Open Scope string_scope.

(** The default arguments in flee/SimulationSettings.py 91-356.  Keys that ReadFromYML
    leaves unset have a dummy value here ([None], empty list or string, zero). *)
Definition default_settings : settings := {|
  s_MaxMoveSpeed := 360; s_MaxWalkSpeed := 35;
  s_ForeignWeight := 1; s_CampWeight := 1;
  s_ConflictWeight := 100000000000 # 316227766017;
  s_ConflictMoveChance := 1; s_CampMoveChance := 1 # 1000;
  s_IDPCampMoveChance := 1 # 10; s_DefaultMoveChance := 3 # 10;
  s_AwarenessLevel := 1; s_CapacityBuffer := 9 # 10; s_CapacityScaling := 1;
  s_AvoidShortStints := false; s_StartOnFoot := false;
  s_DistanceSoftening := 10; s_WeightSoftening := 0; s_WeightPower := 1;
  s_DistancePower := 1; s_StayCloseToHome := false; s_HomeDistancePower := 1 # 2;
  s_UsePopForLocWeight := false; s_PopPowerForLocWeight := 1 # 10;
  s_MovechancePopBase := 10000; s_MovechancePopScaleFactor := 0;
  s_PruningThreshold := 1;
  s_ChildrenAvoidHazards := false; s_BoysTakeRisk := false; s_MatchCampEthnicity := false;
  s_MatchTownEthnicity := false; s_MatchConflictEthnicity := false;
  s_FixedRoutes := false; s_FloodRulesEnabled := false; s_FloodForecaster := false;
  s_FloodForecasterTimescale := None; s_FloodForecasterEndTime := None;
  s_FloodMovechances := None; s_FloodLocWeights := None;
  s_FloodForecasterWeights := None; s_FloodAwarenessWeights := None;
  s_TakeFromPopulation := false; s_InsertDayZero := true; s_EmptyCampsOnDay0 := false;
  s_conflict_zone_spawning_only := true; s_camps_are_sinks := false;
  s_sum_from_camps := true;
  s_conflict_driven_spawning := false; s_conflict_spawn_mode := "";
  s_displaced_per_conflict_day := 0;
  s_flood_driven_spawning := false; s_flood_spawn_mode := ""; s_displaced_per_flood_day := [];
  s_conflict_spawn_decay := None; s_conflict_spawn_decay_interval := 30;
  s_log_agent := 0; s_log_link := 0; s_log_camp := 0; s_granularity := "location" |}.

(** An oracle for the examples: exact powers for integer exponents. *)
Definition ex_oracle : oracle :=
  Oracle (fun x y => if Qeqb y 0 then 1 else if Qeqb y 1 then x else Qpower x (Qtrunc y))
         (fun _ _ => 100).

(** Random streams for the examples *)
Definition rng_const (u : Q) : rng := Rng (fun _ => u) (fun _ => u) (fun _ => 0%nat) 0 0 0.

(** An empty town without links *)
Definition plain_location : location := {|
  l_name := PS "T" 0; l_region := "R"; l_x := 0; l_y := 0; l_movechance := 3 # 10;
  l_links := []; l_closed_links := []; l_routes := []; l_major_routes := [];
  l_numAgents := 0; l_numAgentsOnRank := 0; l_capacity := -1; l_pop := 0;
  l_foreign := false; l_country := "unknown"; l_conflict := -1;
  l_camp := false; l_idpcamp := false; l_town := true; l_forward := false;
  l_marker := false; l_flood_zone := false; l_time_of_conflict := -1;
  l_numAgentsSpawned := 0; l_numAgentsSpawnedOnRank := 0; l_attributes := 0%nat;
  l_score0 := 1; l_score1 := 1; l_incoming_journey_lengths := [] |}.
