(** * State: settings, locations, links, agents and the ecosystem.

    The [up_*] functions are plain field updaters (generated from the field lists). *)

From Verif Require Import Base.

(** ** Settings

    flee/SimulationSettings.py 30-33, 91-356: the dictionaries [move_rules],
    [spawn_rules], [log_levels].  Only the keys read by the modelled code are kept.
    [option] lists are [None] when the key is absent or null. *)
Record settings : Type := Settings {
  s_MaxMoveSpeed : Q;
  s_MaxWalkSpeed : Q;
  s_ForeignWeight : Q;
  s_CampWeight : Q;
  s_ConflictWeight : Q;
  s_ConflictMoveChance : Q;
  s_CampMoveChance : Q;
  s_IDPCampMoveChance : Q;
  s_DefaultMoveChance : Q;
  s_AwarenessLevel : Z;
  s_CapacityBuffer : Q;
  s_CapacityScaling : Q;
  s_AvoidShortStints : bool;
  s_StartOnFoot : bool;
  s_DistanceSoftening : Q;
  s_WeightSoftening : Q;
  s_WeightPower : Q;
  s_DistancePower : Q;
  s_StayCloseToHome : bool;
  s_HomeDistancePower : Q;
  s_UsePopForLocWeight : bool;
  s_PopPowerForLocWeight : Q;
  s_MovechancePopBase : Q;
  s_MovechancePopScaleFactor : Q;
  s_PruningThreshold : Q;
  s_ChildrenAvoidHazards : bool;
  s_BoysTakeRisk : bool;
  s_MatchCampEthnicity : bool;
  s_MatchTownEthnicity : bool;
  s_MatchConflictEthnicity : bool;
  s_FixedRoutes : bool;
  s_FloodRulesEnabled : bool;
  s_FloodForecaster : bool;
  s_FloodForecasterTimescale : option Z;
  s_FloodForecasterEndTime : option Z;
  s_FloodMovechances : option (list Q);
  s_FloodLocWeights : option (list Q);
  s_FloodForecasterWeights : option (list Q);
  s_FloodAwarenessWeights : option (list Q);
  s_TakeFromPopulation : bool;
  s_InsertDayZero : bool;
  s_EmptyCampsOnDay0 : bool;
  s_conflict_zone_spawning_only : bool;
  s_camps_are_sinks : bool;
  s_sum_from_camps : bool;
  s_conflict_driven_spawning : bool;
  s_conflict_spawn_mode : string;
  s_displaced_per_conflict_day : Q;
  s_flood_driven_spawning : bool;
  s_flood_spawn_mode : string;
  s_displaced_per_flood_day : list Q;
  s_conflict_spawn_decay : option (list Q);
  s_conflict_spawn_decay_interval : Z;
  s_log_agent : Z;
  s_log_link : Z;
  s_log_camp : Z;
  s_granularity : string
}.

Definition up_s_MaxMoveSpeed (f : Q -> Q) (r : settings) : settings :=
  Settings (f (s_MaxMoveSpeed r)) (s_MaxWalkSpeed r) (s_ForeignWeight r) (s_CampWeight r) (s_ConflictWeight r) (s_ConflictMoveChance r) (s_CampMoveChance r) (s_IDPCampMoveChance r) (s_DefaultMoveChance r) (s_AwarenessLevel r) (s_CapacityBuffer r) (s_CapacityScaling r) (s_AvoidShortStints r) (s_StartOnFoot r) (s_DistanceSoftening r) (s_WeightSoftening r) (s_WeightPower r) (s_DistancePower r) (s_StayCloseToHome r) (s_HomeDistancePower r) (s_UsePopForLocWeight r) (s_PopPowerForLocWeight r) (s_MovechancePopBase r) (s_MovechancePopScaleFactor r) (s_PruningThreshold r) (s_ChildrenAvoidHazards r) (s_BoysTakeRisk r) (s_MatchCampEthnicity r) (s_MatchTownEthnicity r) (s_MatchConflictEthnicity r) (s_FixedRoutes r) (s_FloodRulesEnabled r) (s_FloodForecaster r) (s_FloodForecasterTimescale r) (s_FloodForecasterEndTime r) (s_FloodMovechances r) (s_FloodLocWeights r) (s_FloodForecasterWeights r) (s_FloodAwarenessWeights r) (s_TakeFromPopulation r) (s_InsertDayZero r) (s_EmptyCampsOnDay0 r) (s_conflict_zone_spawning_only r) (s_camps_are_sinks r) (s_sum_from_camps r) (s_conflict_driven_spawning r) (s_conflict_spawn_mode r) (s_displaced_per_conflict_day r) (s_flood_driven_spawning r) (s_flood_spawn_mode r) (s_displaced_per_flood_day r) (s_conflict_spawn_decay r) (s_conflict_spawn_decay_interval r) (s_log_agent r) (s_log_link r) (s_log_camp r) (s_granularity r).
Definition up_s_MaxWalkSpeed (f : Q -> Q) (r : settings) : settings :=
  Settings (s_MaxMoveSpeed r) (f (s_MaxWalkSpeed r)) (s_ForeignWeight r) (s_CampWeight r) (s_ConflictWeight r) (s_ConflictMoveChance r) (s_CampMoveChance r) (s_IDPCampMoveChance r) (s_DefaultMoveChance r) (s_AwarenessLevel r) (s_CapacityBuffer r) (s_CapacityScaling r) (s_AvoidShortStints r) (s_StartOnFoot r) (s_DistanceSoftening r) (s_WeightSoftening r) (s_WeightPower r) (s_DistancePower r) (s_StayCloseToHome r) (s_HomeDistancePower r) (s_UsePopForLocWeight r) (s_PopPowerForLocWeight r) (s_MovechancePopBase r) (s_MovechancePopScaleFactor r) (s_PruningThreshold r) (s_ChildrenAvoidHazards r) (s_BoysTakeRisk r) (s_MatchCampEthnicity r) (s_MatchTownEthnicity r) (s_MatchConflictEthnicity r) (s_FixedRoutes r) (s_FloodRulesEnabled r) (s_FloodForecaster r) (s_FloodForecasterTimescale r) (s_FloodForecasterEndTime r) (s_FloodMovechances r) (s_FloodLocWeights r) (s_FloodForecasterWeights r) (s_FloodAwarenessWeights r) (s_TakeFromPopulation r) (s_InsertDayZero r) (s_EmptyCampsOnDay0 r) (s_conflict_zone_spawning_only r) (s_camps_are_sinks r) (s_sum_from_camps r) (s_conflict_driven_spawning r) (s_conflict_spawn_mode r) (s_displaced_per_conflict_day r) (s_flood_driven_spawning r) (s_flood_spawn_mode r) (s_displaced_per_flood_day r) (s_conflict_spawn_decay r) (s_conflict_spawn_decay_interval r) (s_log_agent r) (s_log_link r) (s_log_camp r) (s_granularity r).
Definition up_s_ForeignWeight (f : Q -> Q) (r : settings) : settings :=
  Settings (s_MaxMoveSpeed r) (s_MaxWalkSpeed r) (f (s_ForeignWeight r)) (s_CampWeight r) (s_ConflictWeight r) (s_ConflictMoveChance r) (s_CampMoveChance r) (s_IDPCampMoveChance r) (s_DefaultMoveChance r) (s_AwarenessLevel r) (s_CapacityBuffer r) (s_CapacityScaling r) (s_AvoidShortStints r) (s_StartOnFoot r) (s_DistanceSoftening r) (s_WeightSoftening r) (s_WeightPower r) (s_DistancePower r) (s_StayCloseToHome r) (s_HomeDistancePower r) (s_UsePopForLocWeight r) (s_PopPowerForLocWeight r) (s_MovechancePopBase r) (s_MovechancePopScaleFactor r) (s_PruningThreshold r) (s_ChildrenAvoidHazards r) (s_BoysTakeRisk r) (s_MatchCampEthnicity r) (s_MatchTownEthnicity r) (s_MatchConflictEthnicity r) (s_FixedRoutes r) (s_FloodRulesEnabled r) (s_FloodForecaster r) (s_FloodForecasterTimescale r) (s_FloodForecasterEndTime r) (s_FloodMovechances r) (s_FloodLocWeights r) (s_FloodForecasterWeights r) (s_FloodAwarenessWeights r) (s_TakeFromPopulation r) (s_InsertDayZero r) (s_EmptyCampsOnDay0 r) (s_conflict_zone_spawning_only r) (s_camps_are_sinks r) (s_sum_from_camps r) (s_conflict_driven_spawning r) (s_conflict_spawn_mode r) (s_displaced_per_conflict_day r) (s_flood_driven_spawning r) (s_flood_spawn_mode r) (s_displaced_per_flood_day r) (s_conflict_spawn_decay r) (s_conflict_spawn_decay_interval r) (s_log_agent r) (s_log_link r) (s_log_camp r) (s_granularity r).
Definition up_s_CampWeight (f : Q -> Q) (r : settings) : settings :=
  Settings (s_MaxMoveSpeed r) (s_MaxWalkSpeed r) (s_ForeignWeight r) (f (s_CampWeight r)) (s_ConflictWeight r) (s_ConflictMoveChance r) (s_CampMoveChance r) (s_IDPCampMoveChance r) (s_DefaultMoveChance r) (s_AwarenessLevel r) (s_CapacityBuffer r) (s_CapacityScaling r) (s_AvoidShortStints r) (s_StartOnFoot r) (s_DistanceSoftening r) (s_WeightSoftening r) (s_WeightPower r) (s_DistancePower r) (s_StayCloseToHome r) (s_HomeDistancePower r) (s_UsePopForLocWeight r) (s_PopPowerForLocWeight r) (s_MovechancePopBase r) (s_MovechancePopScaleFactor r) (s_PruningThreshold r) (s_ChildrenAvoidHazards r) (s_BoysTakeRisk r) (s_MatchCampEthnicity r) (s_MatchTownEthnicity r) (s_MatchConflictEthnicity r) (s_FixedRoutes r) (s_FloodRulesEnabled r) (s_FloodForecaster r) (s_FloodForecasterTimescale r) (s_FloodForecasterEndTime r) (s_FloodMovechances r) (s_FloodLocWeights r) (s_FloodForecasterWeights r) (s_FloodAwarenessWeights r) (s_TakeFromPopulation r) (s_InsertDayZero r) (s_EmptyCampsOnDay0 r) (s_conflict_zone_spawning_only r) (s_camps_are_sinks r) (s_sum_from_camps r) (s_conflict_driven_spawning r) (s_conflict_spawn_mode r) (s_displaced_per_conflict_day r) (s_flood_driven_spawning r) (s_flood_spawn_mode r) (s_displaced_per_flood_day r) (s_conflict_spawn_decay r) (s_conflict_spawn_decay_interval r) (s_log_agent r) (s_log_link r) (s_log_camp r) (s_granularity r).
Definition up_s_ConflictWeight (f : Q -> Q) (r : settings) : settings :=
  Settings (s_MaxMoveSpeed r) (s_MaxWalkSpeed r) (s_ForeignWeight r) (s_CampWeight r) (f (s_ConflictWeight r)) (s_ConflictMoveChance r) (s_CampMoveChance r) (s_IDPCampMoveChance r) (s_DefaultMoveChance r) (s_AwarenessLevel r) (s_CapacityBuffer r) (s_CapacityScaling r) (s_AvoidShortStints r) (s_StartOnFoot r) (s_DistanceSoftening r) (s_WeightSoftening r) (s_WeightPower r) (s_DistancePower r) (s_StayCloseToHome r) (s_HomeDistancePower r) (s_UsePopForLocWeight r) (s_PopPowerForLocWeight r) (s_MovechancePopBase r) (s_MovechancePopScaleFactor r) (s_PruningThreshold r) (s_ChildrenAvoidHazards r) (s_BoysTakeRisk r) (s_MatchCampEthnicity r) (s_MatchTownEthnicity r) (s_MatchConflictEthnicity r) (s_FixedRoutes r) (s_FloodRulesEnabled r) (s_FloodForecaster r) (s_FloodForecasterTimescale r) (s_FloodForecasterEndTime r) (s_FloodMovechances r) (s_FloodLocWeights r) (s_FloodForecasterWeights r) (s_FloodAwarenessWeights r) (s_TakeFromPopulation r) (s_InsertDayZero r) (s_EmptyCampsOnDay0 r) (s_conflict_zone_spawning_only r) (s_camps_are_sinks r) (s_sum_from_camps r) (s_conflict_driven_spawning r) (s_conflict_spawn_mode r) (s_displaced_per_conflict_day r) (s_flood_driven_spawning r) (s_flood_spawn_mode r) (s_displaced_per_flood_day r) (s_conflict_spawn_decay r) (s_conflict_spawn_decay_interval r) (s_log_agent r) (s_log_link r) (s_log_camp r) (s_granularity r).
Definition up_s_ConflictMoveChance (f : Q -> Q) (r : settings) : settings :=
  Settings (s_MaxMoveSpeed r) (s_MaxWalkSpeed r) (s_ForeignWeight r) (s_CampWeight r) (s_ConflictWeight r) (f (s_ConflictMoveChance r)) (s_CampMoveChance r) (s_IDPCampMoveChance r) (s_DefaultMoveChance r) (s_AwarenessLevel r) (s_CapacityBuffer r) (s_CapacityScaling r) (s_AvoidShortStints r) (s_StartOnFoot r) (s_DistanceSoftening r) (s_WeightSoftening r) (s_WeightPower r) (s_DistancePower r) (s_StayCloseToHome r) (s_HomeDistancePower r) (s_UsePopForLocWeight r) (s_PopPowerForLocWeight r) (s_MovechancePopBase r) (s_MovechancePopScaleFactor r) (s_PruningThreshold r) (s_ChildrenAvoidHazards r) (s_BoysTakeRisk r) (s_MatchCampEthnicity r) (s_MatchTownEthnicity r) (s_MatchConflictEthnicity r) (s_FixedRoutes r) (s_FloodRulesEnabled r) (s_FloodForecaster r) (s_FloodForecasterTimescale r) (s_FloodForecasterEndTime r) (s_FloodMovechances r) (s_FloodLocWeights r) (s_FloodForecasterWeights r) (s_FloodAwarenessWeights r) (s_TakeFromPopulation r) (s_InsertDayZero r) (s_EmptyCampsOnDay0 r) (s_conflict_zone_spawning_only r) (s_camps_are_sinks r) (s_sum_from_camps r) (s_conflict_driven_spawning r) (s_conflict_spawn_mode r) (s_displaced_per_conflict_day r) (s_flood_driven_spawning r) (s_flood_spawn_mode r) (s_displaced_per_flood_day r) (s_conflict_spawn_decay r) (s_conflict_spawn_decay_interval r) (s_log_agent r) (s_log_link r) (s_log_camp r) (s_granularity r).
Definition up_s_CampMoveChance (f : Q -> Q) (r : settings) : settings :=
  Settings (s_MaxMoveSpeed r) (s_MaxWalkSpeed r) (s_ForeignWeight r) (s_CampWeight r) (s_ConflictWeight r) (s_ConflictMoveChance r) (f (s_CampMoveChance r)) (s_IDPCampMoveChance r) (s_DefaultMoveChance r) (s_AwarenessLevel r) (s_CapacityBuffer r) (s_CapacityScaling r) (s_AvoidShortStints r) (s_StartOnFoot r) (s_DistanceSoftening r) (s_WeightSoftening r) (s_WeightPower r) (s_DistancePower r) (s_StayCloseToHome r) (s_HomeDistancePower r) (s_UsePopForLocWeight r) (s_PopPowerForLocWeight r) (s_MovechancePopBase r) (s_MovechancePopScaleFactor r) (s_PruningThreshold r) (s_ChildrenAvoidHazards r) (s_BoysTakeRisk r) (s_MatchCampEthnicity r) (s_MatchTownEthnicity r) (s_MatchConflictEthnicity r) (s_FixedRoutes r) (s_FloodRulesEnabled r) (s_FloodForecaster r) (s_FloodForecasterTimescale r) (s_FloodForecasterEndTime r) (s_FloodMovechances r) (s_FloodLocWeights r) (s_FloodForecasterWeights r) (s_FloodAwarenessWeights r) (s_TakeFromPopulation r) (s_InsertDayZero r) (s_EmptyCampsOnDay0 r) (s_conflict_zone_spawning_only r) (s_camps_are_sinks r) (s_sum_from_camps r) (s_conflict_driven_spawning r) (s_conflict_spawn_mode r) (s_displaced_per_conflict_day r) (s_flood_driven_spawning r) (s_flood_spawn_mode r) (s_displaced_per_flood_day r) (s_conflict_spawn_decay r) (s_conflict_spawn_decay_interval r) (s_log_agent r) (s_log_link r) (s_log_camp r) (s_granularity r).
Definition up_s_IDPCampMoveChance (f : Q -> Q) (r : settings) : settings :=
  Settings (s_MaxMoveSpeed r) (s_MaxWalkSpeed r) (s_ForeignWeight r) (s_CampWeight r) (s_ConflictWeight r) (s_ConflictMoveChance r) (s_CampMoveChance r) (f (s_IDPCampMoveChance r)) (s_DefaultMoveChance r) (s_AwarenessLevel r) (s_CapacityBuffer r) (s_CapacityScaling r) (s_AvoidShortStints r) (s_StartOnFoot r) (s_DistanceSoftening r) (s_WeightSoftening r) (s_WeightPower r) (s_DistancePower r) (s_StayCloseToHome r) (s_HomeDistancePower r) (s_UsePopForLocWeight r) (s_PopPowerForLocWeight r) (s_MovechancePopBase r) (s_MovechancePopScaleFactor r) (s_PruningThreshold r) (s_ChildrenAvoidHazards r) (s_BoysTakeRisk r) (s_MatchCampEthnicity r) (s_MatchTownEthnicity r) (s_MatchConflictEthnicity r) (s_FixedRoutes r) (s_FloodRulesEnabled r) (s_FloodForecaster r) (s_FloodForecasterTimescale r) (s_FloodForecasterEndTime r) (s_FloodMovechances r) (s_FloodLocWeights r) (s_FloodForecasterWeights r) (s_FloodAwarenessWeights r) (s_TakeFromPopulation r) (s_InsertDayZero r) (s_EmptyCampsOnDay0 r) (s_conflict_zone_spawning_only r) (s_camps_are_sinks r) (s_sum_from_camps r) (s_conflict_driven_spawning r) (s_conflict_spawn_mode r) (s_displaced_per_conflict_day r) (s_flood_driven_spawning r) (s_flood_spawn_mode r) (s_displaced_per_flood_day r) (s_conflict_spawn_decay r) (s_conflict_spawn_decay_interval r) (s_log_agent r) (s_log_link r) (s_log_camp r) (s_granularity r).
Definition up_s_DefaultMoveChance (f : Q -> Q) (r : settings) : settings :=
  Settings (s_MaxMoveSpeed r) (s_MaxWalkSpeed r) (s_ForeignWeight r) (s_CampWeight r) (s_ConflictWeight r) (s_ConflictMoveChance r) (s_CampMoveChance r) (s_IDPCampMoveChance r) (f (s_DefaultMoveChance r)) (s_AwarenessLevel r) (s_CapacityBuffer r) (s_CapacityScaling r) (s_AvoidShortStints r) (s_StartOnFoot r) (s_DistanceSoftening r) (s_WeightSoftening r) (s_WeightPower r) (s_DistancePower r) (s_StayCloseToHome r) (s_HomeDistancePower r) (s_UsePopForLocWeight r) (s_PopPowerForLocWeight r) (s_MovechancePopBase r) (s_MovechancePopScaleFactor r) (s_PruningThreshold r) (s_ChildrenAvoidHazards r) (s_BoysTakeRisk r) (s_MatchCampEthnicity r) (s_MatchTownEthnicity r) (s_MatchConflictEthnicity r) (s_FixedRoutes r) (s_FloodRulesEnabled r) (s_FloodForecaster r) (s_FloodForecasterTimescale r) (s_FloodForecasterEndTime r) (s_FloodMovechances r) (s_FloodLocWeights r) (s_FloodForecasterWeights r) (s_FloodAwarenessWeights r) (s_TakeFromPopulation r) (s_InsertDayZero r) (s_EmptyCampsOnDay0 r) (s_conflict_zone_spawning_only r) (s_camps_are_sinks r) (s_sum_from_camps r) (s_conflict_driven_spawning r) (s_conflict_spawn_mode r) (s_displaced_per_conflict_day r) (s_flood_driven_spawning r) (s_flood_spawn_mode r) (s_displaced_per_flood_day r) (s_conflict_spawn_decay r) (s_conflict_spawn_decay_interval r) (s_log_agent r) (s_log_link r) (s_log_camp r) (s_granularity r).
Definition up_s_AwarenessLevel (f : Z -> Z) (r : settings) : settings :=
  Settings (s_MaxMoveSpeed r) (s_MaxWalkSpeed r) (s_ForeignWeight r) (s_CampWeight r) (s_ConflictWeight r) (s_ConflictMoveChance r) (s_CampMoveChance r) (s_IDPCampMoveChance r) (s_DefaultMoveChance r) (f (s_AwarenessLevel r)) (s_CapacityBuffer r) (s_CapacityScaling r) (s_AvoidShortStints r) (s_StartOnFoot r) (s_DistanceSoftening r) (s_WeightSoftening r) (s_WeightPower r) (s_DistancePower r) (s_StayCloseToHome r) (s_HomeDistancePower r) (s_UsePopForLocWeight r) (s_PopPowerForLocWeight r) (s_MovechancePopBase r) (s_MovechancePopScaleFactor r) (s_PruningThreshold r) (s_ChildrenAvoidHazards r) (s_BoysTakeRisk r) (s_MatchCampEthnicity r) (s_MatchTownEthnicity r) (s_MatchConflictEthnicity r) (s_FixedRoutes r) (s_FloodRulesEnabled r) (s_FloodForecaster r) (s_FloodForecasterTimescale r) (s_FloodForecasterEndTime r) (s_FloodMovechances r) (s_FloodLocWeights r) (s_FloodForecasterWeights r) (s_FloodAwarenessWeights r) (s_TakeFromPopulation r) (s_InsertDayZero r) (s_EmptyCampsOnDay0 r) (s_conflict_zone_spawning_only r) (s_camps_are_sinks r) (s_sum_from_camps r) (s_conflict_driven_spawning r) (s_conflict_spawn_mode r) (s_displaced_per_conflict_day r) (s_flood_driven_spawning r) (s_flood_spawn_mode r) (s_displaced_per_flood_day r) (s_conflict_spawn_decay r) (s_conflict_spawn_decay_interval r) (s_log_agent r) (s_log_link r) (s_log_camp r) (s_granularity r).
Definition up_s_CapacityBuffer (f : Q -> Q) (r : settings) : settings :=
  Settings (s_MaxMoveSpeed r) (s_MaxWalkSpeed r) (s_ForeignWeight r) (s_CampWeight r) (s_ConflictWeight r) (s_ConflictMoveChance r) (s_CampMoveChance r) (s_IDPCampMoveChance r) (s_DefaultMoveChance r) (s_AwarenessLevel r) (f (s_CapacityBuffer r)) (s_CapacityScaling r) (s_AvoidShortStints r) (s_StartOnFoot r) (s_DistanceSoftening r) (s_WeightSoftening r) (s_WeightPower r) (s_DistancePower r) (s_StayCloseToHome r) (s_HomeDistancePower r) (s_UsePopForLocWeight r) (s_PopPowerForLocWeight r) (s_MovechancePopBase r) (s_MovechancePopScaleFactor r) (s_PruningThreshold r) (s_ChildrenAvoidHazards r) (s_BoysTakeRisk r) (s_MatchCampEthnicity r) (s_MatchTownEthnicity r) (s_MatchConflictEthnicity r) (s_FixedRoutes r) (s_FloodRulesEnabled r) (s_FloodForecaster r) (s_FloodForecasterTimescale r) (s_FloodForecasterEndTime r) (s_FloodMovechances r) (s_FloodLocWeights r) (s_FloodForecasterWeights r) (s_FloodAwarenessWeights r) (s_TakeFromPopulation r) (s_InsertDayZero r) (s_EmptyCampsOnDay0 r) (s_conflict_zone_spawning_only r) (s_camps_are_sinks r) (s_sum_from_camps r) (s_conflict_driven_spawning r) (s_conflict_spawn_mode r) (s_displaced_per_conflict_day r) (s_flood_driven_spawning r) (s_flood_spawn_mode r) (s_displaced_per_flood_day r) (s_conflict_spawn_decay r) (s_conflict_spawn_decay_interval r) (s_log_agent r) (s_log_link r) (s_log_camp r) (s_granularity r).
Definition up_s_CapacityScaling (f : Q -> Q) (r : settings) : settings :=
  Settings (s_MaxMoveSpeed r) (s_MaxWalkSpeed r) (s_ForeignWeight r) (s_CampWeight r) (s_ConflictWeight r) (s_ConflictMoveChance r) (s_CampMoveChance r) (s_IDPCampMoveChance r) (s_DefaultMoveChance r) (s_AwarenessLevel r) (s_CapacityBuffer r) (f (s_CapacityScaling r)) (s_AvoidShortStints r) (s_StartOnFoot r) (s_DistanceSoftening r) (s_WeightSoftening r) (s_WeightPower r) (s_DistancePower r) (s_StayCloseToHome r) (s_HomeDistancePower r) (s_UsePopForLocWeight r) (s_PopPowerForLocWeight r) (s_MovechancePopBase r) (s_MovechancePopScaleFactor r) (s_PruningThreshold r) (s_ChildrenAvoidHazards r) (s_BoysTakeRisk r) (s_MatchCampEthnicity r) (s_MatchTownEthnicity r) (s_MatchConflictEthnicity r) (s_FixedRoutes r) (s_FloodRulesEnabled r) (s_FloodForecaster r) (s_FloodForecasterTimescale r) (s_FloodForecasterEndTime r) (s_FloodMovechances r) (s_FloodLocWeights r) (s_FloodForecasterWeights r) (s_FloodAwarenessWeights r) (s_TakeFromPopulation r) (s_InsertDayZero r) (s_EmptyCampsOnDay0 r) (s_conflict_zone_spawning_only r) (s_camps_are_sinks r) (s_sum_from_camps r) (s_conflict_driven_spawning r) (s_conflict_spawn_mode r) (s_displaced_per_conflict_day r) (s_flood_driven_spawning r) (s_flood_spawn_mode r) (s_displaced_per_flood_day r) (s_conflict_spawn_decay r) (s_conflict_spawn_decay_interval r) (s_log_agent r) (s_log_link r) (s_log_camp r) (s_granularity r).
Definition up_s_AvoidShortStints (f : bool -> bool) (r : settings) : settings :=
  Settings (s_MaxMoveSpeed r) (s_MaxWalkSpeed r) (s_ForeignWeight r) (s_CampWeight r) (s_ConflictWeight r) (s_ConflictMoveChance r) (s_CampMoveChance r) (s_IDPCampMoveChance r) (s_DefaultMoveChance r) (s_AwarenessLevel r) (s_CapacityBuffer r) (s_CapacityScaling r) (f (s_AvoidShortStints r)) (s_StartOnFoot r) (s_DistanceSoftening r) (s_WeightSoftening r) (s_WeightPower r) (s_DistancePower r) (s_StayCloseToHome r) (s_HomeDistancePower r) (s_UsePopForLocWeight r) (s_PopPowerForLocWeight r) (s_MovechancePopBase r) (s_MovechancePopScaleFactor r) (s_PruningThreshold r) (s_ChildrenAvoidHazards r) (s_BoysTakeRisk r) (s_MatchCampEthnicity r) (s_MatchTownEthnicity r) (s_MatchConflictEthnicity r) (s_FixedRoutes r) (s_FloodRulesEnabled r) (s_FloodForecaster r) (s_FloodForecasterTimescale r) (s_FloodForecasterEndTime r) (s_FloodMovechances r) (s_FloodLocWeights r) (s_FloodForecasterWeights r) (s_FloodAwarenessWeights r) (s_TakeFromPopulation r) (s_InsertDayZero r) (s_EmptyCampsOnDay0 r) (s_conflict_zone_spawning_only r) (s_camps_are_sinks r) (s_sum_from_camps r) (s_conflict_driven_spawning r) (s_conflict_spawn_mode r) (s_displaced_per_conflict_day r) (s_flood_driven_spawning r) (s_flood_spawn_mode r) (s_displaced_per_flood_day r) (s_conflict_spawn_decay r) (s_conflict_spawn_decay_interval r) (s_log_agent r) (s_log_link r) (s_log_camp r) (s_granularity r).
Definition up_s_StartOnFoot (f : bool -> bool) (r : settings) : settings :=
  Settings (s_MaxMoveSpeed r) (s_MaxWalkSpeed r) (s_ForeignWeight r) (s_CampWeight r) (s_ConflictWeight r) (s_ConflictMoveChance r) (s_CampMoveChance r) (s_IDPCampMoveChance r) (s_DefaultMoveChance r) (s_AwarenessLevel r) (s_CapacityBuffer r) (s_CapacityScaling r) (s_AvoidShortStints r) (f (s_StartOnFoot r)) (s_DistanceSoftening r) (s_WeightSoftening r) (s_WeightPower r) (s_DistancePower r) (s_StayCloseToHome r) (s_HomeDistancePower r) (s_UsePopForLocWeight r) (s_PopPowerForLocWeight r) (s_MovechancePopBase r) (s_MovechancePopScaleFactor r) (s_PruningThreshold r) (s_ChildrenAvoidHazards r) (s_BoysTakeRisk r) (s_MatchCampEthnicity r) (s_MatchTownEthnicity r) (s_MatchConflictEthnicity r) (s_FixedRoutes r) (s_FloodRulesEnabled r) (s_FloodForecaster r) (s_FloodForecasterTimescale r) (s_FloodForecasterEndTime r) (s_FloodMovechances r) (s_FloodLocWeights r) (s_FloodForecasterWeights r) (s_FloodAwarenessWeights r) (s_TakeFromPopulation r) (s_InsertDayZero r) (s_EmptyCampsOnDay0 r) (s_conflict_zone_spawning_only r) (s_camps_are_sinks r) (s_sum_from_camps r) (s_conflict_driven_spawning r) (s_conflict_spawn_mode r) (s_displaced_per_conflict_day r) (s_flood_driven_spawning r) (s_flood_spawn_mode r) (s_displaced_per_flood_day r) (s_conflict_spawn_decay r) (s_conflict_spawn_decay_interval r) (s_log_agent r) (s_log_link r) (s_log_camp r) (s_granularity r).
Definition up_s_DistanceSoftening (f : Q -> Q) (r : settings) : settings :=
  Settings (s_MaxMoveSpeed r) (s_MaxWalkSpeed r) (s_ForeignWeight r) (s_CampWeight r) (s_ConflictWeight r) (s_ConflictMoveChance r) (s_CampMoveChance r) (s_IDPCampMoveChance r) (s_DefaultMoveChance r) (s_AwarenessLevel r) (s_CapacityBuffer r) (s_CapacityScaling r) (s_AvoidShortStints r) (s_StartOnFoot r) (f (s_DistanceSoftening r)) (s_WeightSoftening r) (s_WeightPower r) (s_DistancePower r) (s_StayCloseToHome r) (s_HomeDistancePower r) (s_UsePopForLocWeight r) (s_PopPowerForLocWeight r) (s_MovechancePopBase r) (s_MovechancePopScaleFactor r) (s_PruningThreshold r) (s_ChildrenAvoidHazards r) (s_BoysTakeRisk r) (s_MatchCampEthnicity r) (s_MatchTownEthnicity r) (s_MatchConflictEthnicity r) (s_FixedRoutes r) (s_FloodRulesEnabled r) (s_FloodForecaster r) (s_FloodForecasterTimescale r) (s_FloodForecasterEndTime r) (s_FloodMovechances r) (s_FloodLocWeights r) (s_FloodForecasterWeights r) (s_FloodAwarenessWeights r) (s_TakeFromPopulation r) (s_InsertDayZero r) (s_EmptyCampsOnDay0 r) (s_conflict_zone_spawning_only r) (s_camps_are_sinks r) (s_sum_from_camps r) (s_conflict_driven_spawning r) (s_conflict_spawn_mode r) (s_displaced_per_conflict_day r) (s_flood_driven_spawning r) (s_flood_spawn_mode r) (s_displaced_per_flood_day r) (s_conflict_spawn_decay r) (s_conflict_spawn_decay_interval r) (s_log_agent r) (s_log_link r) (s_log_camp r) (s_granularity r).
Definition up_s_WeightSoftening (f : Q -> Q) (r : settings) : settings :=
  Settings (s_MaxMoveSpeed r) (s_MaxWalkSpeed r) (s_ForeignWeight r) (s_CampWeight r) (s_ConflictWeight r) (s_ConflictMoveChance r) (s_CampMoveChance r) (s_IDPCampMoveChance r) (s_DefaultMoveChance r) (s_AwarenessLevel r) (s_CapacityBuffer r) (s_CapacityScaling r) (s_AvoidShortStints r) (s_StartOnFoot r) (s_DistanceSoftening r) (f (s_WeightSoftening r)) (s_WeightPower r) (s_DistancePower r) (s_StayCloseToHome r) (s_HomeDistancePower r) (s_UsePopForLocWeight r) (s_PopPowerForLocWeight r) (s_MovechancePopBase r) (s_MovechancePopScaleFactor r) (s_PruningThreshold r) (s_ChildrenAvoidHazards r) (s_BoysTakeRisk r) (s_MatchCampEthnicity r) (s_MatchTownEthnicity r) (s_MatchConflictEthnicity r) (s_FixedRoutes r) (s_FloodRulesEnabled r) (s_FloodForecaster r) (s_FloodForecasterTimescale r) (s_FloodForecasterEndTime r) (s_FloodMovechances r) (s_FloodLocWeights r) (s_FloodForecasterWeights r) (s_FloodAwarenessWeights r) (s_TakeFromPopulation r) (s_InsertDayZero r) (s_EmptyCampsOnDay0 r) (s_conflict_zone_spawning_only r) (s_camps_are_sinks r) (s_sum_from_camps r) (s_conflict_driven_spawning r) (s_conflict_spawn_mode r) (s_displaced_per_conflict_day r) (s_flood_driven_spawning r) (s_flood_spawn_mode r) (s_displaced_per_flood_day r) (s_conflict_spawn_decay r) (s_conflict_spawn_decay_interval r) (s_log_agent r) (s_log_link r) (s_log_camp r) (s_granularity r).
Definition up_s_WeightPower (f : Q -> Q) (r : settings) : settings :=
  Settings (s_MaxMoveSpeed r) (s_MaxWalkSpeed r) (s_ForeignWeight r) (s_CampWeight r) (s_ConflictWeight r) (s_ConflictMoveChance r) (s_CampMoveChance r) (s_IDPCampMoveChance r) (s_DefaultMoveChance r) (s_AwarenessLevel r) (s_CapacityBuffer r) (s_CapacityScaling r) (s_AvoidShortStints r) (s_StartOnFoot r) (s_DistanceSoftening r) (s_WeightSoftening r) (f (s_WeightPower r)) (s_DistancePower r) (s_StayCloseToHome r) (s_HomeDistancePower r) (s_UsePopForLocWeight r) (s_PopPowerForLocWeight r) (s_MovechancePopBase r) (s_MovechancePopScaleFactor r) (s_PruningThreshold r) (s_ChildrenAvoidHazards r) (s_BoysTakeRisk r) (s_MatchCampEthnicity r) (s_MatchTownEthnicity r) (s_MatchConflictEthnicity r) (s_FixedRoutes r) (s_FloodRulesEnabled r) (s_FloodForecaster r) (s_FloodForecasterTimescale r) (s_FloodForecasterEndTime r) (s_FloodMovechances r) (s_FloodLocWeights r) (s_FloodForecasterWeights r) (s_FloodAwarenessWeights r) (s_TakeFromPopulation r) (s_InsertDayZero r) (s_EmptyCampsOnDay0 r) (s_conflict_zone_spawning_only r) (s_camps_are_sinks r) (s_sum_from_camps r) (s_conflict_driven_spawning r) (s_conflict_spawn_mode r) (s_displaced_per_conflict_day r) (s_flood_driven_spawning r) (s_flood_spawn_mode r) (s_displaced_per_flood_day r) (s_conflict_spawn_decay r) (s_conflict_spawn_decay_interval r) (s_log_agent r) (s_log_link r) (s_log_camp r) (s_granularity r).
Definition up_s_DistancePower (f : Q -> Q) (r : settings) : settings :=
  Settings (s_MaxMoveSpeed r) (s_MaxWalkSpeed r) (s_ForeignWeight r) (s_CampWeight r) (s_ConflictWeight r) (s_ConflictMoveChance r) (s_CampMoveChance r) (s_IDPCampMoveChance r) (s_DefaultMoveChance r) (s_AwarenessLevel r) (s_CapacityBuffer r) (s_CapacityScaling r) (s_AvoidShortStints r) (s_StartOnFoot r) (s_DistanceSoftening r) (s_WeightSoftening r) (s_WeightPower r) (f (s_DistancePower r)) (s_StayCloseToHome r) (s_HomeDistancePower r) (s_UsePopForLocWeight r) (s_PopPowerForLocWeight r) (s_MovechancePopBase r) (s_MovechancePopScaleFactor r) (s_PruningThreshold r) (s_ChildrenAvoidHazards r) (s_BoysTakeRisk r) (s_MatchCampEthnicity r) (s_MatchTownEthnicity r) (s_MatchConflictEthnicity r) (s_FixedRoutes r) (s_FloodRulesEnabled r) (s_FloodForecaster r) (s_FloodForecasterTimescale r) (s_FloodForecasterEndTime r) (s_FloodMovechances r) (s_FloodLocWeights r) (s_FloodForecasterWeights r) (s_FloodAwarenessWeights r) (s_TakeFromPopulation r) (s_InsertDayZero r) (s_EmptyCampsOnDay0 r) (s_conflict_zone_spawning_only r) (s_camps_are_sinks r) (s_sum_from_camps r) (s_conflict_driven_spawning r) (s_conflict_spawn_mode r) (s_displaced_per_conflict_day r) (s_flood_driven_spawning r) (s_flood_spawn_mode r) (s_displaced_per_flood_day r) (s_conflict_spawn_decay r) (s_conflict_spawn_decay_interval r) (s_log_agent r) (s_log_link r) (s_log_camp r) (s_granularity r).
Definition up_s_StayCloseToHome (f : bool -> bool) (r : settings) : settings :=
  Settings (s_MaxMoveSpeed r) (s_MaxWalkSpeed r) (s_ForeignWeight r) (s_CampWeight r) (s_ConflictWeight r) (s_ConflictMoveChance r) (s_CampMoveChance r) (s_IDPCampMoveChance r) (s_DefaultMoveChance r) (s_AwarenessLevel r) (s_CapacityBuffer r) (s_CapacityScaling r) (s_AvoidShortStints r) (s_StartOnFoot r) (s_DistanceSoftening r) (s_WeightSoftening r) (s_WeightPower r) (s_DistancePower r) (f (s_StayCloseToHome r)) (s_HomeDistancePower r) (s_UsePopForLocWeight r) (s_PopPowerForLocWeight r) (s_MovechancePopBase r) (s_MovechancePopScaleFactor r) (s_PruningThreshold r) (s_ChildrenAvoidHazards r) (s_BoysTakeRisk r) (s_MatchCampEthnicity r) (s_MatchTownEthnicity r) (s_MatchConflictEthnicity r) (s_FixedRoutes r) (s_FloodRulesEnabled r) (s_FloodForecaster r) (s_FloodForecasterTimescale r) (s_FloodForecasterEndTime r) (s_FloodMovechances r) (s_FloodLocWeights r) (s_FloodForecasterWeights r) (s_FloodAwarenessWeights r) (s_TakeFromPopulation r) (s_InsertDayZero r) (s_EmptyCampsOnDay0 r) (s_conflict_zone_spawning_only r) (s_camps_are_sinks r) (s_sum_from_camps r) (s_conflict_driven_spawning r) (s_conflict_spawn_mode r) (s_displaced_per_conflict_day r) (s_flood_driven_spawning r) (s_flood_spawn_mode r) (s_displaced_per_flood_day r) (s_conflict_spawn_decay r) (s_conflict_spawn_decay_interval r) (s_log_agent r) (s_log_link r) (s_log_camp r) (s_granularity r).
Definition up_s_HomeDistancePower (f : Q -> Q) (r : settings) : settings :=
  Settings (s_MaxMoveSpeed r) (s_MaxWalkSpeed r) (s_ForeignWeight r) (s_CampWeight r) (s_ConflictWeight r) (s_ConflictMoveChance r) (s_CampMoveChance r) (s_IDPCampMoveChance r) (s_DefaultMoveChance r) (s_AwarenessLevel r) (s_CapacityBuffer r) (s_CapacityScaling r) (s_AvoidShortStints r) (s_StartOnFoot r) (s_DistanceSoftening r) (s_WeightSoftening r) (s_WeightPower r) (s_DistancePower r) (s_StayCloseToHome r) (f (s_HomeDistancePower r)) (s_UsePopForLocWeight r) (s_PopPowerForLocWeight r) (s_MovechancePopBase r) (s_MovechancePopScaleFactor r) (s_PruningThreshold r) (s_ChildrenAvoidHazards r) (s_BoysTakeRisk r) (s_MatchCampEthnicity r) (s_MatchTownEthnicity r) (s_MatchConflictEthnicity r) (s_FixedRoutes r) (s_FloodRulesEnabled r) (s_FloodForecaster r) (s_FloodForecasterTimescale r) (s_FloodForecasterEndTime r) (s_FloodMovechances r) (s_FloodLocWeights r) (s_FloodForecasterWeights r) (s_FloodAwarenessWeights r) (s_TakeFromPopulation r) (s_InsertDayZero r) (s_EmptyCampsOnDay0 r) (s_conflict_zone_spawning_only r) (s_camps_are_sinks r) (s_sum_from_camps r) (s_conflict_driven_spawning r) (s_conflict_spawn_mode r) (s_displaced_per_conflict_day r) (s_flood_driven_spawning r) (s_flood_spawn_mode r) (s_displaced_per_flood_day r) (s_conflict_spawn_decay r) (s_conflict_spawn_decay_interval r) (s_log_agent r) (s_log_link r) (s_log_camp r) (s_granularity r).
Definition up_s_UsePopForLocWeight (f : bool -> bool) (r : settings) : settings :=
  Settings (s_MaxMoveSpeed r) (s_MaxWalkSpeed r) (s_ForeignWeight r) (s_CampWeight r) (s_ConflictWeight r) (s_ConflictMoveChance r) (s_CampMoveChance r) (s_IDPCampMoveChance r) (s_DefaultMoveChance r) (s_AwarenessLevel r) (s_CapacityBuffer r) (s_CapacityScaling r) (s_AvoidShortStints r) (s_StartOnFoot r) (s_DistanceSoftening r) (s_WeightSoftening r) (s_WeightPower r) (s_DistancePower r) (s_StayCloseToHome r) (s_HomeDistancePower r) (f (s_UsePopForLocWeight r)) (s_PopPowerForLocWeight r) (s_MovechancePopBase r) (s_MovechancePopScaleFactor r) (s_PruningThreshold r) (s_ChildrenAvoidHazards r) (s_BoysTakeRisk r) (s_MatchCampEthnicity r) (s_MatchTownEthnicity r) (s_MatchConflictEthnicity r) (s_FixedRoutes r) (s_FloodRulesEnabled r) (s_FloodForecaster r) (s_FloodForecasterTimescale r) (s_FloodForecasterEndTime r) (s_FloodMovechances r) (s_FloodLocWeights r) (s_FloodForecasterWeights r) (s_FloodAwarenessWeights r) (s_TakeFromPopulation r) (s_InsertDayZero r) (s_EmptyCampsOnDay0 r) (s_conflict_zone_spawning_only r) (s_camps_are_sinks r) (s_sum_from_camps r) (s_conflict_driven_spawning r) (s_conflict_spawn_mode r) (s_displaced_per_conflict_day r) (s_flood_driven_spawning r) (s_flood_spawn_mode r) (s_displaced_per_flood_day r) (s_conflict_spawn_decay r) (s_conflict_spawn_decay_interval r) (s_log_agent r) (s_log_link r) (s_log_camp r) (s_granularity r).
Definition up_s_PopPowerForLocWeight (f : Q -> Q) (r : settings) : settings :=
  Settings (s_MaxMoveSpeed r) (s_MaxWalkSpeed r) (s_ForeignWeight r) (s_CampWeight r) (s_ConflictWeight r) (s_ConflictMoveChance r) (s_CampMoveChance r) (s_IDPCampMoveChance r) (s_DefaultMoveChance r) (s_AwarenessLevel r) (s_CapacityBuffer r) (s_CapacityScaling r) (s_AvoidShortStints r) (s_StartOnFoot r) (s_DistanceSoftening r) (s_WeightSoftening r) (s_WeightPower r) (s_DistancePower r) (s_StayCloseToHome r) (s_HomeDistancePower r) (s_UsePopForLocWeight r) (f (s_PopPowerForLocWeight r)) (s_MovechancePopBase r) (s_MovechancePopScaleFactor r) (s_PruningThreshold r) (s_ChildrenAvoidHazards r) (s_BoysTakeRisk r) (s_MatchCampEthnicity r) (s_MatchTownEthnicity r) (s_MatchConflictEthnicity r) (s_FixedRoutes r) (s_FloodRulesEnabled r) (s_FloodForecaster r) (s_FloodForecasterTimescale r) (s_FloodForecasterEndTime r) (s_FloodMovechances r) (s_FloodLocWeights r) (s_FloodForecasterWeights r) (s_FloodAwarenessWeights r) (s_TakeFromPopulation r) (s_InsertDayZero r) (s_EmptyCampsOnDay0 r) (s_conflict_zone_spawning_only r) (s_camps_are_sinks r) (s_sum_from_camps r) (s_conflict_driven_spawning r) (s_conflict_spawn_mode r) (s_displaced_per_conflict_day r) (s_flood_driven_spawning r) (s_flood_spawn_mode r) (s_displaced_per_flood_day r) (s_conflict_spawn_decay r) (s_conflict_spawn_decay_interval r) (s_log_agent r) (s_log_link r) (s_log_camp r) (s_granularity r).
Definition up_s_MovechancePopBase (f : Q -> Q) (r : settings) : settings :=
  Settings (s_MaxMoveSpeed r) (s_MaxWalkSpeed r) (s_ForeignWeight r) (s_CampWeight r) (s_ConflictWeight r) (s_ConflictMoveChance r) (s_CampMoveChance r) (s_IDPCampMoveChance r) (s_DefaultMoveChance r) (s_AwarenessLevel r) (s_CapacityBuffer r) (s_CapacityScaling r) (s_AvoidShortStints r) (s_StartOnFoot r) (s_DistanceSoftening r) (s_WeightSoftening r) (s_WeightPower r) (s_DistancePower r) (s_StayCloseToHome r) (s_HomeDistancePower r) (s_UsePopForLocWeight r) (s_PopPowerForLocWeight r) (f (s_MovechancePopBase r)) (s_MovechancePopScaleFactor r) (s_PruningThreshold r) (s_ChildrenAvoidHazards r) (s_BoysTakeRisk r) (s_MatchCampEthnicity r) (s_MatchTownEthnicity r) (s_MatchConflictEthnicity r) (s_FixedRoutes r) (s_FloodRulesEnabled r) (s_FloodForecaster r) (s_FloodForecasterTimescale r) (s_FloodForecasterEndTime r) (s_FloodMovechances r) (s_FloodLocWeights r) (s_FloodForecasterWeights r) (s_FloodAwarenessWeights r) (s_TakeFromPopulation r) (s_InsertDayZero r) (s_EmptyCampsOnDay0 r) (s_conflict_zone_spawning_only r) (s_camps_are_sinks r) (s_sum_from_camps r) (s_conflict_driven_spawning r) (s_conflict_spawn_mode r) (s_displaced_per_conflict_day r) (s_flood_driven_spawning r) (s_flood_spawn_mode r) (s_displaced_per_flood_day r) (s_conflict_spawn_decay r) (s_conflict_spawn_decay_interval r) (s_log_agent r) (s_log_link r) (s_log_camp r) (s_granularity r).
Definition up_s_MovechancePopScaleFactor (f : Q -> Q) (r : settings) : settings :=
  Settings (s_MaxMoveSpeed r) (s_MaxWalkSpeed r) (s_ForeignWeight r) (s_CampWeight r) (s_ConflictWeight r) (s_ConflictMoveChance r) (s_CampMoveChance r) (s_IDPCampMoveChance r) (s_DefaultMoveChance r) (s_AwarenessLevel r) (s_CapacityBuffer r) (s_CapacityScaling r) (s_AvoidShortStints r) (s_StartOnFoot r) (s_DistanceSoftening r) (s_WeightSoftening r) (s_WeightPower r) (s_DistancePower r) (s_StayCloseToHome r) (s_HomeDistancePower r) (s_UsePopForLocWeight r) (s_PopPowerForLocWeight r) (s_MovechancePopBase r) (f (s_MovechancePopScaleFactor r)) (s_PruningThreshold r) (s_ChildrenAvoidHazards r) (s_BoysTakeRisk r) (s_MatchCampEthnicity r) (s_MatchTownEthnicity r) (s_MatchConflictEthnicity r) (s_FixedRoutes r) (s_FloodRulesEnabled r) (s_FloodForecaster r) (s_FloodForecasterTimescale r) (s_FloodForecasterEndTime r) (s_FloodMovechances r) (s_FloodLocWeights r) (s_FloodForecasterWeights r) (s_FloodAwarenessWeights r) (s_TakeFromPopulation r) (s_InsertDayZero r) (s_EmptyCampsOnDay0 r) (s_conflict_zone_spawning_only r) (s_camps_are_sinks r) (s_sum_from_camps r) (s_conflict_driven_spawning r) (s_conflict_spawn_mode r) (s_displaced_per_conflict_day r) (s_flood_driven_spawning r) (s_flood_spawn_mode r) (s_displaced_per_flood_day r) (s_conflict_spawn_decay r) (s_conflict_spawn_decay_interval r) (s_log_agent r) (s_log_link r) (s_log_camp r) (s_granularity r).
Definition up_s_PruningThreshold (f : Q -> Q) (r : settings) : settings :=
  Settings (s_MaxMoveSpeed r) (s_MaxWalkSpeed r) (s_ForeignWeight r) (s_CampWeight r) (s_ConflictWeight r) (s_ConflictMoveChance r) (s_CampMoveChance r) (s_IDPCampMoveChance r) (s_DefaultMoveChance r) (s_AwarenessLevel r) (s_CapacityBuffer r) (s_CapacityScaling r) (s_AvoidShortStints r) (s_StartOnFoot r) (s_DistanceSoftening r) (s_WeightSoftening r) (s_WeightPower r) (s_DistancePower r) (s_StayCloseToHome r) (s_HomeDistancePower r) (s_UsePopForLocWeight r) (s_PopPowerForLocWeight r) (s_MovechancePopBase r) (s_MovechancePopScaleFactor r) (f (s_PruningThreshold r)) (s_ChildrenAvoidHazards r) (s_BoysTakeRisk r) (s_MatchCampEthnicity r) (s_MatchTownEthnicity r) (s_MatchConflictEthnicity r) (s_FixedRoutes r) (s_FloodRulesEnabled r) (s_FloodForecaster r) (s_FloodForecasterTimescale r) (s_FloodForecasterEndTime r) (s_FloodMovechances r) (s_FloodLocWeights r) (s_FloodForecasterWeights r) (s_FloodAwarenessWeights r) (s_TakeFromPopulation r) (s_InsertDayZero r) (s_EmptyCampsOnDay0 r) (s_conflict_zone_spawning_only r) (s_camps_are_sinks r) (s_sum_from_camps r) (s_conflict_driven_spawning r) (s_conflict_spawn_mode r) (s_displaced_per_conflict_day r) (s_flood_driven_spawning r) (s_flood_spawn_mode r) (s_displaced_per_flood_day r) (s_conflict_spawn_decay r) (s_conflict_spawn_decay_interval r) (s_log_agent r) (s_log_link r) (s_log_camp r) (s_granularity r).
Definition up_s_ChildrenAvoidHazards (f : bool -> bool) (r : settings) : settings :=
  Settings (s_MaxMoveSpeed r) (s_MaxWalkSpeed r) (s_ForeignWeight r) (s_CampWeight r) (s_ConflictWeight r) (s_ConflictMoveChance r) (s_CampMoveChance r) (s_IDPCampMoveChance r) (s_DefaultMoveChance r) (s_AwarenessLevel r) (s_CapacityBuffer r) (s_CapacityScaling r) (s_AvoidShortStints r) (s_StartOnFoot r) (s_DistanceSoftening r) (s_WeightSoftening r) (s_WeightPower r) (s_DistancePower r) (s_StayCloseToHome r) (s_HomeDistancePower r) (s_UsePopForLocWeight r) (s_PopPowerForLocWeight r) (s_MovechancePopBase r) (s_MovechancePopScaleFactor r) (s_PruningThreshold r) (f (s_ChildrenAvoidHazards r)) (s_BoysTakeRisk r) (s_MatchCampEthnicity r) (s_MatchTownEthnicity r) (s_MatchConflictEthnicity r) (s_FixedRoutes r) (s_FloodRulesEnabled r) (s_FloodForecaster r) (s_FloodForecasterTimescale r) (s_FloodForecasterEndTime r) (s_FloodMovechances r) (s_FloodLocWeights r) (s_FloodForecasterWeights r) (s_FloodAwarenessWeights r) (s_TakeFromPopulation r) (s_InsertDayZero r) (s_EmptyCampsOnDay0 r) (s_conflict_zone_spawning_only r) (s_camps_are_sinks r) (s_sum_from_camps r) (s_conflict_driven_spawning r) (s_conflict_spawn_mode r) (s_displaced_per_conflict_day r) (s_flood_driven_spawning r) (s_flood_spawn_mode r) (s_displaced_per_flood_day r) (s_conflict_spawn_decay r) (s_conflict_spawn_decay_interval r) (s_log_agent r) (s_log_link r) (s_log_camp r) (s_granularity r).
Definition up_s_BoysTakeRisk (f : bool -> bool) (r : settings) : settings :=
  Settings (s_MaxMoveSpeed r) (s_MaxWalkSpeed r) (s_ForeignWeight r) (s_CampWeight r) (s_ConflictWeight r) (s_ConflictMoveChance r) (s_CampMoveChance r) (s_IDPCampMoveChance r) (s_DefaultMoveChance r) (s_AwarenessLevel r) (s_CapacityBuffer r) (s_CapacityScaling r) (s_AvoidShortStints r) (s_StartOnFoot r) (s_DistanceSoftening r) (s_WeightSoftening r) (s_WeightPower r) (s_DistancePower r) (s_StayCloseToHome r) (s_HomeDistancePower r) (s_UsePopForLocWeight r) (s_PopPowerForLocWeight r) (s_MovechancePopBase r) (s_MovechancePopScaleFactor r) (s_PruningThreshold r) (s_ChildrenAvoidHazards r) (f (s_BoysTakeRisk r)) (s_MatchCampEthnicity r) (s_MatchTownEthnicity r) (s_MatchConflictEthnicity r) (s_FixedRoutes r) (s_FloodRulesEnabled r) (s_FloodForecaster r) (s_FloodForecasterTimescale r) (s_FloodForecasterEndTime r) (s_FloodMovechances r) (s_FloodLocWeights r) (s_FloodForecasterWeights r) (s_FloodAwarenessWeights r) (s_TakeFromPopulation r) (s_InsertDayZero r) (s_EmptyCampsOnDay0 r) (s_conflict_zone_spawning_only r) (s_camps_are_sinks r) (s_sum_from_camps r) (s_conflict_driven_spawning r) (s_conflict_spawn_mode r) (s_displaced_per_conflict_day r) (s_flood_driven_spawning r) (s_flood_spawn_mode r) (s_displaced_per_flood_day r) (s_conflict_spawn_decay r) (s_conflict_spawn_decay_interval r) (s_log_agent r) (s_log_link r) (s_log_camp r) (s_granularity r).
Definition up_s_MatchCampEthnicity (f : bool -> bool) (r : settings) : settings :=
  Settings (s_MaxMoveSpeed r) (s_MaxWalkSpeed r) (s_ForeignWeight r) (s_CampWeight r) (s_ConflictWeight r) (s_ConflictMoveChance r) (s_CampMoveChance r) (s_IDPCampMoveChance r) (s_DefaultMoveChance r) (s_AwarenessLevel r) (s_CapacityBuffer r) (s_CapacityScaling r) (s_AvoidShortStints r) (s_StartOnFoot r) (s_DistanceSoftening r) (s_WeightSoftening r) (s_WeightPower r) (s_DistancePower r) (s_StayCloseToHome r) (s_HomeDistancePower r) (s_UsePopForLocWeight r) (s_PopPowerForLocWeight r) (s_MovechancePopBase r) (s_MovechancePopScaleFactor r) (s_PruningThreshold r) (s_ChildrenAvoidHazards r) (s_BoysTakeRisk r) (f (s_MatchCampEthnicity r)) (s_MatchTownEthnicity r) (s_MatchConflictEthnicity r) (s_FixedRoutes r) (s_FloodRulesEnabled r) (s_FloodForecaster r) (s_FloodForecasterTimescale r) (s_FloodForecasterEndTime r) (s_FloodMovechances r) (s_FloodLocWeights r) (s_FloodForecasterWeights r) (s_FloodAwarenessWeights r) (s_TakeFromPopulation r) (s_InsertDayZero r) (s_EmptyCampsOnDay0 r) (s_conflict_zone_spawning_only r) (s_camps_are_sinks r) (s_sum_from_camps r) (s_conflict_driven_spawning r) (s_conflict_spawn_mode r) (s_displaced_per_conflict_day r) (s_flood_driven_spawning r) (s_flood_spawn_mode r) (s_displaced_per_flood_day r) (s_conflict_spawn_decay r) (s_conflict_spawn_decay_interval r) (s_log_agent r) (s_log_link r) (s_log_camp r) (s_granularity r).
Definition up_s_MatchTownEthnicity (f : bool -> bool) (r : settings) : settings :=
  Settings (s_MaxMoveSpeed r) (s_MaxWalkSpeed r) (s_ForeignWeight r) (s_CampWeight r) (s_ConflictWeight r) (s_ConflictMoveChance r) (s_CampMoveChance r) (s_IDPCampMoveChance r) (s_DefaultMoveChance r) (s_AwarenessLevel r) (s_CapacityBuffer r) (s_CapacityScaling r) (s_AvoidShortStints r) (s_StartOnFoot r) (s_DistanceSoftening r) (s_WeightSoftening r) (s_WeightPower r) (s_DistancePower r) (s_StayCloseToHome r) (s_HomeDistancePower r) (s_UsePopForLocWeight r) (s_PopPowerForLocWeight r) (s_MovechancePopBase r) (s_MovechancePopScaleFactor r) (s_PruningThreshold r) (s_ChildrenAvoidHazards r) (s_BoysTakeRisk r) (s_MatchCampEthnicity r) (f (s_MatchTownEthnicity r)) (s_MatchConflictEthnicity r) (s_FixedRoutes r) (s_FloodRulesEnabled r) (s_FloodForecaster r) (s_FloodForecasterTimescale r) (s_FloodForecasterEndTime r) (s_FloodMovechances r) (s_FloodLocWeights r) (s_FloodForecasterWeights r) (s_FloodAwarenessWeights r) (s_TakeFromPopulation r) (s_InsertDayZero r) (s_EmptyCampsOnDay0 r) (s_conflict_zone_spawning_only r) (s_camps_are_sinks r) (s_sum_from_camps r) (s_conflict_driven_spawning r) (s_conflict_spawn_mode r) (s_displaced_per_conflict_day r) (s_flood_driven_spawning r) (s_flood_spawn_mode r) (s_displaced_per_flood_day r) (s_conflict_spawn_decay r) (s_conflict_spawn_decay_interval r) (s_log_agent r) (s_log_link r) (s_log_camp r) (s_granularity r).
Definition up_s_MatchConflictEthnicity (f : bool -> bool) (r : settings) : settings :=
  Settings (s_MaxMoveSpeed r) (s_MaxWalkSpeed r) (s_ForeignWeight r) (s_CampWeight r) (s_ConflictWeight r) (s_ConflictMoveChance r) (s_CampMoveChance r) (s_IDPCampMoveChance r) (s_DefaultMoveChance r) (s_AwarenessLevel r) (s_CapacityBuffer r) (s_CapacityScaling r) (s_AvoidShortStints r) (s_StartOnFoot r) (s_DistanceSoftening r) (s_WeightSoftening r) (s_WeightPower r) (s_DistancePower r) (s_StayCloseToHome r) (s_HomeDistancePower r) (s_UsePopForLocWeight r) (s_PopPowerForLocWeight r) (s_MovechancePopBase r) (s_MovechancePopScaleFactor r) (s_PruningThreshold r) (s_ChildrenAvoidHazards r) (s_BoysTakeRisk r) (s_MatchCampEthnicity r) (s_MatchTownEthnicity r) (f (s_MatchConflictEthnicity r)) (s_FixedRoutes r) (s_FloodRulesEnabled r) (s_FloodForecaster r) (s_FloodForecasterTimescale r) (s_FloodForecasterEndTime r) (s_FloodMovechances r) (s_FloodLocWeights r) (s_FloodForecasterWeights r) (s_FloodAwarenessWeights r) (s_TakeFromPopulation r) (s_InsertDayZero r) (s_EmptyCampsOnDay0 r) (s_conflict_zone_spawning_only r) (s_camps_are_sinks r) (s_sum_from_camps r) (s_conflict_driven_spawning r) (s_conflict_spawn_mode r) (s_displaced_per_conflict_day r) (s_flood_driven_spawning r) (s_flood_spawn_mode r) (s_displaced_per_flood_day r) (s_conflict_spawn_decay r) (s_conflict_spawn_decay_interval r) (s_log_agent r) (s_log_link r) (s_log_camp r) (s_granularity r).
Definition up_s_FixedRoutes (f : bool -> bool) (r : settings) : settings :=
  Settings (s_MaxMoveSpeed r) (s_MaxWalkSpeed r) (s_ForeignWeight r) (s_CampWeight r) (s_ConflictWeight r) (s_ConflictMoveChance r) (s_CampMoveChance r) (s_IDPCampMoveChance r) (s_DefaultMoveChance r) (s_AwarenessLevel r) (s_CapacityBuffer r) (s_CapacityScaling r) (s_AvoidShortStints r) (s_StartOnFoot r) (s_DistanceSoftening r) (s_WeightSoftening r) (s_WeightPower r) (s_DistancePower r) (s_StayCloseToHome r) (s_HomeDistancePower r) (s_UsePopForLocWeight r) (s_PopPowerForLocWeight r) (s_MovechancePopBase r) (s_MovechancePopScaleFactor r) (s_PruningThreshold r) (s_ChildrenAvoidHazards r) (s_BoysTakeRisk r) (s_MatchCampEthnicity r) (s_MatchTownEthnicity r) (s_MatchConflictEthnicity r) (f (s_FixedRoutes r)) (s_FloodRulesEnabled r) (s_FloodForecaster r) (s_FloodForecasterTimescale r) (s_FloodForecasterEndTime r) (s_FloodMovechances r) (s_FloodLocWeights r) (s_FloodForecasterWeights r) (s_FloodAwarenessWeights r) (s_TakeFromPopulation r) (s_InsertDayZero r) (s_EmptyCampsOnDay0 r) (s_conflict_zone_spawning_only r) (s_camps_are_sinks r) (s_sum_from_camps r) (s_conflict_driven_spawning r) (s_conflict_spawn_mode r) (s_displaced_per_conflict_day r) (s_flood_driven_spawning r) (s_flood_spawn_mode r) (s_displaced_per_flood_day r) (s_conflict_spawn_decay r) (s_conflict_spawn_decay_interval r) (s_log_agent r) (s_log_link r) (s_log_camp r) (s_granularity r).
Definition up_s_FloodRulesEnabled (f : bool -> bool) (r : settings) : settings :=
  Settings (s_MaxMoveSpeed r) (s_MaxWalkSpeed r) (s_ForeignWeight r) (s_CampWeight r) (s_ConflictWeight r) (s_ConflictMoveChance r) (s_CampMoveChance r) (s_IDPCampMoveChance r) (s_DefaultMoveChance r) (s_AwarenessLevel r) (s_CapacityBuffer r) (s_CapacityScaling r) (s_AvoidShortStints r) (s_StartOnFoot r) (s_DistanceSoftening r) (s_WeightSoftening r) (s_WeightPower r) (s_DistancePower r) (s_StayCloseToHome r) (s_HomeDistancePower r) (s_UsePopForLocWeight r) (s_PopPowerForLocWeight r) (s_MovechancePopBase r) (s_MovechancePopScaleFactor r) (s_PruningThreshold r) (s_ChildrenAvoidHazards r) (s_BoysTakeRisk r) (s_MatchCampEthnicity r) (s_MatchTownEthnicity r) (s_MatchConflictEthnicity r) (s_FixedRoutes r) (f (s_FloodRulesEnabled r)) (s_FloodForecaster r) (s_FloodForecasterTimescale r) (s_FloodForecasterEndTime r) (s_FloodMovechances r) (s_FloodLocWeights r) (s_FloodForecasterWeights r) (s_FloodAwarenessWeights r) (s_TakeFromPopulation r) (s_InsertDayZero r) (s_EmptyCampsOnDay0 r) (s_conflict_zone_spawning_only r) (s_camps_are_sinks r) (s_sum_from_camps r) (s_conflict_driven_spawning r) (s_conflict_spawn_mode r) (s_displaced_per_conflict_day r) (s_flood_driven_spawning r) (s_flood_spawn_mode r) (s_displaced_per_flood_day r) (s_conflict_spawn_decay r) (s_conflict_spawn_decay_interval r) (s_log_agent r) (s_log_link r) (s_log_camp r) (s_granularity r).
Definition up_s_FloodForecaster (f : bool -> bool) (r : settings) : settings :=
  Settings (s_MaxMoveSpeed r) (s_MaxWalkSpeed r) (s_ForeignWeight r) (s_CampWeight r) (s_ConflictWeight r) (s_ConflictMoveChance r) (s_CampMoveChance r) (s_IDPCampMoveChance r) (s_DefaultMoveChance r) (s_AwarenessLevel r) (s_CapacityBuffer r) (s_CapacityScaling r) (s_AvoidShortStints r) (s_StartOnFoot r) (s_DistanceSoftening r) (s_WeightSoftening r) (s_WeightPower r) (s_DistancePower r) (s_StayCloseToHome r) (s_HomeDistancePower r) (s_UsePopForLocWeight r) (s_PopPowerForLocWeight r) (s_MovechancePopBase r) (s_MovechancePopScaleFactor r) (s_PruningThreshold r) (s_ChildrenAvoidHazards r) (s_BoysTakeRisk r) (s_MatchCampEthnicity r) (s_MatchTownEthnicity r) (s_MatchConflictEthnicity r) (s_FixedRoutes r) (s_FloodRulesEnabled r) (f (s_FloodForecaster r)) (s_FloodForecasterTimescale r) (s_FloodForecasterEndTime r) (s_FloodMovechances r) (s_FloodLocWeights r) (s_FloodForecasterWeights r) (s_FloodAwarenessWeights r) (s_TakeFromPopulation r) (s_InsertDayZero r) (s_EmptyCampsOnDay0 r) (s_conflict_zone_spawning_only r) (s_camps_are_sinks r) (s_sum_from_camps r) (s_conflict_driven_spawning r) (s_conflict_spawn_mode r) (s_displaced_per_conflict_day r) (s_flood_driven_spawning r) (s_flood_spawn_mode r) (s_displaced_per_flood_day r) (s_conflict_spawn_decay r) (s_conflict_spawn_decay_interval r) (s_log_agent r) (s_log_link r) (s_log_camp r) (s_granularity r).
Definition up_s_FloodForecasterTimescale (f : (option Z) -> (option Z)) (r : settings) : settings :=
  Settings (s_MaxMoveSpeed r) (s_MaxWalkSpeed r) (s_ForeignWeight r) (s_CampWeight r) (s_ConflictWeight r) (s_ConflictMoveChance r) (s_CampMoveChance r) (s_IDPCampMoveChance r) (s_DefaultMoveChance r) (s_AwarenessLevel r) (s_CapacityBuffer r) (s_CapacityScaling r) (s_AvoidShortStints r) (s_StartOnFoot r) (s_DistanceSoftening r) (s_WeightSoftening r) (s_WeightPower r) (s_DistancePower r) (s_StayCloseToHome r) (s_HomeDistancePower r) (s_UsePopForLocWeight r) (s_PopPowerForLocWeight r) (s_MovechancePopBase r) (s_MovechancePopScaleFactor r) (s_PruningThreshold r) (s_ChildrenAvoidHazards r) (s_BoysTakeRisk r) (s_MatchCampEthnicity r) (s_MatchTownEthnicity r) (s_MatchConflictEthnicity r) (s_FixedRoutes r) (s_FloodRulesEnabled r) (s_FloodForecaster r) (f (s_FloodForecasterTimescale r)) (s_FloodForecasterEndTime r) (s_FloodMovechances r) (s_FloodLocWeights r) (s_FloodForecasterWeights r) (s_FloodAwarenessWeights r) (s_TakeFromPopulation r) (s_InsertDayZero r) (s_EmptyCampsOnDay0 r) (s_conflict_zone_spawning_only r) (s_camps_are_sinks r) (s_sum_from_camps r) (s_conflict_driven_spawning r) (s_conflict_spawn_mode r) (s_displaced_per_conflict_day r) (s_flood_driven_spawning r) (s_flood_spawn_mode r) (s_displaced_per_flood_day r) (s_conflict_spawn_decay r) (s_conflict_spawn_decay_interval r) (s_log_agent r) (s_log_link r) (s_log_camp r) (s_granularity r).
Definition up_s_FloodForecasterEndTime (f : (option Z) -> (option Z)) (r : settings) : settings :=
  Settings (s_MaxMoveSpeed r) (s_MaxWalkSpeed r) (s_ForeignWeight r) (s_CampWeight r) (s_ConflictWeight r) (s_ConflictMoveChance r) (s_CampMoveChance r) (s_IDPCampMoveChance r) (s_DefaultMoveChance r) (s_AwarenessLevel r) (s_CapacityBuffer r) (s_CapacityScaling r) (s_AvoidShortStints r) (s_StartOnFoot r) (s_DistanceSoftening r) (s_WeightSoftening r) (s_WeightPower r) (s_DistancePower r) (s_StayCloseToHome r) (s_HomeDistancePower r) (s_UsePopForLocWeight r) (s_PopPowerForLocWeight r) (s_MovechancePopBase r) (s_MovechancePopScaleFactor r) (s_PruningThreshold r) (s_ChildrenAvoidHazards r) (s_BoysTakeRisk r) (s_MatchCampEthnicity r) (s_MatchTownEthnicity r) (s_MatchConflictEthnicity r) (s_FixedRoutes r) (s_FloodRulesEnabled r) (s_FloodForecaster r) (s_FloodForecasterTimescale r) (f (s_FloodForecasterEndTime r)) (s_FloodMovechances r) (s_FloodLocWeights r) (s_FloodForecasterWeights r) (s_FloodAwarenessWeights r) (s_TakeFromPopulation r) (s_InsertDayZero r) (s_EmptyCampsOnDay0 r) (s_conflict_zone_spawning_only r) (s_camps_are_sinks r) (s_sum_from_camps r) (s_conflict_driven_spawning r) (s_conflict_spawn_mode r) (s_displaced_per_conflict_day r) (s_flood_driven_spawning r) (s_flood_spawn_mode r) (s_displaced_per_flood_day r) (s_conflict_spawn_decay r) (s_conflict_spawn_decay_interval r) (s_log_agent r) (s_log_link r) (s_log_camp r) (s_granularity r).
Definition up_s_FloodMovechances (f : (option (list Q)) -> (option (list Q))) (r : settings) : settings :=
  Settings (s_MaxMoveSpeed r) (s_MaxWalkSpeed r) (s_ForeignWeight r) (s_CampWeight r) (s_ConflictWeight r) (s_ConflictMoveChance r) (s_CampMoveChance r) (s_IDPCampMoveChance r) (s_DefaultMoveChance r) (s_AwarenessLevel r) (s_CapacityBuffer r) (s_CapacityScaling r) (s_AvoidShortStints r) (s_StartOnFoot r) (s_DistanceSoftening r) (s_WeightSoftening r) (s_WeightPower r) (s_DistancePower r) (s_StayCloseToHome r) (s_HomeDistancePower r) (s_UsePopForLocWeight r) (s_PopPowerForLocWeight r) (s_MovechancePopBase r) (s_MovechancePopScaleFactor r) (s_PruningThreshold r) (s_ChildrenAvoidHazards r) (s_BoysTakeRisk r) (s_MatchCampEthnicity r) (s_MatchTownEthnicity r) (s_MatchConflictEthnicity r) (s_FixedRoutes r) (s_FloodRulesEnabled r) (s_FloodForecaster r) (s_FloodForecasterTimescale r) (s_FloodForecasterEndTime r) (f (s_FloodMovechances r)) (s_FloodLocWeights r) (s_FloodForecasterWeights r) (s_FloodAwarenessWeights r) (s_TakeFromPopulation r) (s_InsertDayZero r) (s_EmptyCampsOnDay0 r) (s_conflict_zone_spawning_only r) (s_camps_are_sinks r) (s_sum_from_camps r) (s_conflict_driven_spawning r) (s_conflict_spawn_mode r) (s_displaced_per_conflict_day r) (s_flood_driven_spawning r) (s_flood_spawn_mode r) (s_displaced_per_flood_day r) (s_conflict_spawn_decay r) (s_conflict_spawn_decay_interval r) (s_log_agent r) (s_log_link r) (s_log_camp r) (s_granularity r).
Definition up_s_FloodLocWeights (f : (option (list Q)) -> (option (list Q))) (r : settings) : settings :=
  Settings (s_MaxMoveSpeed r) (s_MaxWalkSpeed r) (s_ForeignWeight r) (s_CampWeight r) (s_ConflictWeight r) (s_ConflictMoveChance r) (s_CampMoveChance r) (s_IDPCampMoveChance r) (s_DefaultMoveChance r) (s_AwarenessLevel r) (s_CapacityBuffer r) (s_CapacityScaling r) (s_AvoidShortStints r) (s_StartOnFoot r) (s_DistanceSoftening r) (s_WeightSoftening r) (s_WeightPower r) (s_DistancePower r) (s_StayCloseToHome r) (s_HomeDistancePower r) (s_UsePopForLocWeight r) (s_PopPowerForLocWeight r) (s_MovechancePopBase r) (s_MovechancePopScaleFactor r) (s_PruningThreshold r) (s_ChildrenAvoidHazards r) (s_BoysTakeRisk r) (s_MatchCampEthnicity r) (s_MatchTownEthnicity r) (s_MatchConflictEthnicity r) (s_FixedRoutes r) (s_FloodRulesEnabled r) (s_FloodForecaster r) (s_FloodForecasterTimescale r) (s_FloodForecasterEndTime r) (s_FloodMovechances r) (f (s_FloodLocWeights r)) (s_FloodForecasterWeights r) (s_FloodAwarenessWeights r) (s_TakeFromPopulation r) (s_InsertDayZero r) (s_EmptyCampsOnDay0 r) (s_conflict_zone_spawning_only r) (s_camps_are_sinks r) (s_sum_from_camps r) (s_conflict_driven_spawning r) (s_conflict_spawn_mode r) (s_displaced_per_conflict_day r) (s_flood_driven_spawning r) (s_flood_spawn_mode r) (s_displaced_per_flood_day r) (s_conflict_spawn_decay r) (s_conflict_spawn_decay_interval r) (s_log_agent r) (s_log_link r) (s_log_camp r) (s_granularity r).
Definition up_s_FloodForecasterWeights (f : (option (list Q)) -> (option (list Q))) (r : settings) : settings :=
  Settings (s_MaxMoveSpeed r) (s_MaxWalkSpeed r) (s_ForeignWeight r) (s_CampWeight r) (s_ConflictWeight r) (s_ConflictMoveChance r) (s_CampMoveChance r) (s_IDPCampMoveChance r) (s_DefaultMoveChance r) (s_AwarenessLevel r) (s_CapacityBuffer r) (s_CapacityScaling r) (s_AvoidShortStints r) (s_StartOnFoot r) (s_DistanceSoftening r) (s_WeightSoftening r) (s_WeightPower r) (s_DistancePower r) (s_StayCloseToHome r) (s_HomeDistancePower r) (s_UsePopForLocWeight r) (s_PopPowerForLocWeight r) (s_MovechancePopBase r) (s_MovechancePopScaleFactor r) (s_PruningThreshold r) (s_ChildrenAvoidHazards r) (s_BoysTakeRisk r) (s_MatchCampEthnicity r) (s_MatchTownEthnicity r) (s_MatchConflictEthnicity r) (s_FixedRoutes r) (s_FloodRulesEnabled r) (s_FloodForecaster r) (s_FloodForecasterTimescale r) (s_FloodForecasterEndTime r) (s_FloodMovechances r) (s_FloodLocWeights r) (f (s_FloodForecasterWeights r)) (s_FloodAwarenessWeights r) (s_TakeFromPopulation r) (s_InsertDayZero r) (s_EmptyCampsOnDay0 r) (s_conflict_zone_spawning_only r) (s_camps_are_sinks r) (s_sum_from_camps r) (s_conflict_driven_spawning r) (s_conflict_spawn_mode r) (s_displaced_per_conflict_day r) (s_flood_driven_spawning r) (s_flood_spawn_mode r) (s_displaced_per_flood_day r) (s_conflict_spawn_decay r) (s_conflict_spawn_decay_interval r) (s_log_agent r) (s_log_link r) (s_log_camp r) (s_granularity r).
Definition up_s_FloodAwarenessWeights (f : (option (list Q)) -> (option (list Q))) (r : settings) : settings :=
  Settings (s_MaxMoveSpeed r) (s_MaxWalkSpeed r) (s_ForeignWeight r) (s_CampWeight r) (s_ConflictWeight r) (s_ConflictMoveChance r) (s_CampMoveChance r) (s_IDPCampMoveChance r) (s_DefaultMoveChance r) (s_AwarenessLevel r) (s_CapacityBuffer r) (s_CapacityScaling r) (s_AvoidShortStints r) (s_StartOnFoot r) (s_DistanceSoftening r) (s_WeightSoftening r) (s_WeightPower r) (s_DistancePower r) (s_StayCloseToHome r) (s_HomeDistancePower r) (s_UsePopForLocWeight r) (s_PopPowerForLocWeight r) (s_MovechancePopBase r) (s_MovechancePopScaleFactor r) (s_PruningThreshold r) (s_ChildrenAvoidHazards r) (s_BoysTakeRisk r) (s_MatchCampEthnicity r) (s_MatchTownEthnicity r) (s_MatchConflictEthnicity r) (s_FixedRoutes r) (s_FloodRulesEnabled r) (s_FloodForecaster r) (s_FloodForecasterTimescale r) (s_FloodForecasterEndTime r) (s_FloodMovechances r) (s_FloodLocWeights r) (s_FloodForecasterWeights r) (f (s_FloodAwarenessWeights r)) (s_TakeFromPopulation r) (s_InsertDayZero r) (s_EmptyCampsOnDay0 r) (s_conflict_zone_spawning_only r) (s_camps_are_sinks r) (s_sum_from_camps r) (s_conflict_driven_spawning r) (s_conflict_spawn_mode r) (s_displaced_per_conflict_day r) (s_flood_driven_spawning r) (s_flood_spawn_mode r) (s_displaced_per_flood_day r) (s_conflict_spawn_decay r) (s_conflict_spawn_decay_interval r) (s_log_agent r) (s_log_link r) (s_log_camp r) (s_granularity r).
Definition up_s_TakeFromPopulation (f : bool -> bool) (r : settings) : settings :=
  Settings (s_MaxMoveSpeed r) (s_MaxWalkSpeed r) (s_ForeignWeight r) (s_CampWeight r) (s_ConflictWeight r) (s_ConflictMoveChance r) (s_CampMoveChance r) (s_IDPCampMoveChance r) (s_DefaultMoveChance r) (s_AwarenessLevel r) (s_CapacityBuffer r) (s_CapacityScaling r) (s_AvoidShortStints r) (s_StartOnFoot r) (s_DistanceSoftening r) (s_WeightSoftening r) (s_WeightPower r) (s_DistancePower r) (s_StayCloseToHome r) (s_HomeDistancePower r) (s_UsePopForLocWeight r) (s_PopPowerForLocWeight r) (s_MovechancePopBase r) (s_MovechancePopScaleFactor r) (s_PruningThreshold r) (s_ChildrenAvoidHazards r) (s_BoysTakeRisk r) (s_MatchCampEthnicity r) (s_MatchTownEthnicity r) (s_MatchConflictEthnicity r) (s_FixedRoutes r) (s_FloodRulesEnabled r) (s_FloodForecaster r) (s_FloodForecasterTimescale r) (s_FloodForecasterEndTime r) (s_FloodMovechances r) (s_FloodLocWeights r) (s_FloodForecasterWeights r) (s_FloodAwarenessWeights r) (f (s_TakeFromPopulation r)) (s_InsertDayZero r) (s_EmptyCampsOnDay0 r) (s_conflict_zone_spawning_only r) (s_camps_are_sinks r) (s_sum_from_camps r) (s_conflict_driven_spawning r) (s_conflict_spawn_mode r) (s_displaced_per_conflict_day r) (s_flood_driven_spawning r) (s_flood_spawn_mode r) (s_displaced_per_flood_day r) (s_conflict_spawn_decay r) (s_conflict_spawn_decay_interval r) (s_log_agent r) (s_log_link r) (s_log_camp r) (s_granularity r).
Definition up_s_InsertDayZero (f : bool -> bool) (r : settings) : settings :=
  Settings (s_MaxMoveSpeed r) (s_MaxWalkSpeed r) (s_ForeignWeight r) (s_CampWeight r) (s_ConflictWeight r) (s_ConflictMoveChance r) (s_CampMoveChance r) (s_IDPCampMoveChance r) (s_DefaultMoveChance r) (s_AwarenessLevel r) (s_CapacityBuffer r) (s_CapacityScaling r) (s_AvoidShortStints r) (s_StartOnFoot r) (s_DistanceSoftening r) (s_WeightSoftening r) (s_WeightPower r) (s_DistancePower r) (s_StayCloseToHome r) (s_HomeDistancePower r) (s_UsePopForLocWeight r) (s_PopPowerForLocWeight r) (s_MovechancePopBase r) (s_MovechancePopScaleFactor r) (s_PruningThreshold r) (s_ChildrenAvoidHazards r) (s_BoysTakeRisk r) (s_MatchCampEthnicity r) (s_MatchTownEthnicity r) (s_MatchConflictEthnicity r) (s_FixedRoutes r) (s_FloodRulesEnabled r) (s_FloodForecaster r) (s_FloodForecasterTimescale r) (s_FloodForecasterEndTime r) (s_FloodMovechances r) (s_FloodLocWeights r) (s_FloodForecasterWeights r) (s_FloodAwarenessWeights r) (s_TakeFromPopulation r) (f (s_InsertDayZero r)) (s_EmptyCampsOnDay0 r) (s_conflict_zone_spawning_only r) (s_camps_are_sinks r) (s_sum_from_camps r) (s_conflict_driven_spawning r) (s_conflict_spawn_mode r) (s_displaced_per_conflict_day r) (s_flood_driven_spawning r) (s_flood_spawn_mode r) (s_displaced_per_flood_day r) (s_conflict_spawn_decay r) (s_conflict_spawn_decay_interval r) (s_log_agent r) (s_log_link r) (s_log_camp r) (s_granularity r).
Definition up_s_EmptyCampsOnDay0 (f : bool -> bool) (r : settings) : settings :=
  Settings (s_MaxMoveSpeed r) (s_MaxWalkSpeed r) (s_ForeignWeight r) (s_CampWeight r) (s_ConflictWeight r) (s_ConflictMoveChance r) (s_CampMoveChance r) (s_IDPCampMoveChance r) (s_DefaultMoveChance r) (s_AwarenessLevel r) (s_CapacityBuffer r) (s_CapacityScaling r) (s_AvoidShortStints r) (s_StartOnFoot r) (s_DistanceSoftening r) (s_WeightSoftening r) (s_WeightPower r) (s_DistancePower r) (s_StayCloseToHome r) (s_HomeDistancePower r) (s_UsePopForLocWeight r) (s_PopPowerForLocWeight r) (s_MovechancePopBase r) (s_MovechancePopScaleFactor r) (s_PruningThreshold r) (s_ChildrenAvoidHazards r) (s_BoysTakeRisk r) (s_MatchCampEthnicity r) (s_MatchTownEthnicity r) (s_MatchConflictEthnicity r) (s_FixedRoutes r) (s_FloodRulesEnabled r) (s_FloodForecaster r) (s_FloodForecasterTimescale r) (s_FloodForecasterEndTime r) (s_FloodMovechances r) (s_FloodLocWeights r) (s_FloodForecasterWeights r) (s_FloodAwarenessWeights r) (s_TakeFromPopulation r) (s_InsertDayZero r) (f (s_EmptyCampsOnDay0 r)) (s_conflict_zone_spawning_only r) (s_camps_are_sinks r) (s_sum_from_camps r) (s_conflict_driven_spawning r) (s_conflict_spawn_mode r) (s_displaced_per_conflict_day r) (s_flood_driven_spawning r) (s_flood_spawn_mode r) (s_displaced_per_flood_day r) (s_conflict_spawn_decay r) (s_conflict_spawn_decay_interval r) (s_log_agent r) (s_log_link r) (s_log_camp r) (s_granularity r).
Definition up_s_conflict_zone_spawning_only (f : bool -> bool) (r : settings) : settings :=
  Settings (s_MaxMoveSpeed r) (s_MaxWalkSpeed r) (s_ForeignWeight r) (s_CampWeight r) (s_ConflictWeight r) (s_ConflictMoveChance r) (s_CampMoveChance r) (s_IDPCampMoveChance r) (s_DefaultMoveChance r) (s_AwarenessLevel r) (s_CapacityBuffer r) (s_CapacityScaling r) (s_AvoidShortStints r) (s_StartOnFoot r) (s_DistanceSoftening r) (s_WeightSoftening r) (s_WeightPower r) (s_DistancePower r) (s_StayCloseToHome r) (s_HomeDistancePower r) (s_UsePopForLocWeight r) (s_PopPowerForLocWeight r) (s_MovechancePopBase r) (s_MovechancePopScaleFactor r) (s_PruningThreshold r) (s_ChildrenAvoidHazards r) (s_BoysTakeRisk r) (s_MatchCampEthnicity r) (s_MatchTownEthnicity r) (s_MatchConflictEthnicity r) (s_FixedRoutes r) (s_FloodRulesEnabled r) (s_FloodForecaster r) (s_FloodForecasterTimescale r) (s_FloodForecasterEndTime r) (s_FloodMovechances r) (s_FloodLocWeights r) (s_FloodForecasterWeights r) (s_FloodAwarenessWeights r) (s_TakeFromPopulation r) (s_InsertDayZero r) (s_EmptyCampsOnDay0 r) (f (s_conflict_zone_spawning_only r)) (s_camps_are_sinks r) (s_sum_from_camps r) (s_conflict_driven_spawning r) (s_conflict_spawn_mode r) (s_displaced_per_conflict_day r) (s_flood_driven_spawning r) (s_flood_spawn_mode r) (s_displaced_per_flood_day r) (s_conflict_spawn_decay r) (s_conflict_spawn_decay_interval r) (s_log_agent r) (s_log_link r) (s_log_camp r) (s_granularity r).
Definition up_s_camps_are_sinks (f : bool -> bool) (r : settings) : settings :=
  Settings (s_MaxMoveSpeed r) (s_MaxWalkSpeed r) (s_ForeignWeight r) (s_CampWeight r) (s_ConflictWeight r) (s_ConflictMoveChance r) (s_CampMoveChance r) (s_IDPCampMoveChance r) (s_DefaultMoveChance r) (s_AwarenessLevel r) (s_CapacityBuffer r) (s_CapacityScaling r) (s_AvoidShortStints r) (s_StartOnFoot r) (s_DistanceSoftening r) (s_WeightSoftening r) (s_WeightPower r) (s_DistancePower r) (s_StayCloseToHome r) (s_HomeDistancePower r) (s_UsePopForLocWeight r) (s_PopPowerForLocWeight r) (s_MovechancePopBase r) (s_MovechancePopScaleFactor r) (s_PruningThreshold r) (s_ChildrenAvoidHazards r) (s_BoysTakeRisk r) (s_MatchCampEthnicity r) (s_MatchTownEthnicity r) (s_MatchConflictEthnicity r) (s_FixedRoutes r) (s_FloodRulesEnabled r) (s_FloodForecaster r) (s_FloodForecasterTimescale r) (s_FloodForecasterEndTime r) (s_FloodMovechances r) (s_FloodLocWeights r) (s_FloodForecasterWeights r) (s_FloodAwarenessWeights r) (s_TakeFromPopulation r) (s_InsertDayZero r) (s_EmptyCampsOnDay0 r) (s_conflict_zone_spawning_only r) (f (s_camps_are_sinks r)) (s_sum_from_camps r) (s_conflict_driven_spawning r) (s_conflict_spawn_mode r) (s_displaced_per_conflict_day r) (s_flood_driven_spawning r) (s_flood_spawn_mode r) (s_displaced_per_flood_day r) (s_conflict_spawn_decay r) (s_conflict_spawn_decay_interval r) (s_log_agent r) (s_log_link r) (s_log_camp r) (s_granularity r).
Definition up_s_sum_from_camps (f : bool -> bool) (r : settings) : settings :=
  Settings (s_MaxMoveSpeed r) (s_MaxWalkSpeed r) (s_ForeignWeight r) (s_CampWeight r) (s_ConflictWeight r) (s_ConflictMoveChance r) (s_CampMoveChance r) (s_IDPCampMoveChance r) (s_DefaultMoveChance r) (s_AwarenessLevel r) (s_CapacityBuffer r) (s_CapacityScaling r) (s_AvoidShortStints r) (s_StartOnFoot r) (s_DistanceSoftening r) (s_WeightSoftening r) (s_WeightPower r) (s_DistancePower r) (s_StayCloseToHome r) (s_HomeDistancePower r) (s_UsePopForLocWeight r) (s_PopPowerForLocWeight r) (s_MovechancePopBase r) (s_MovechancePopScaleFactor r) (s_PruningThreshold r) (s_ChildrenAvoidHazards r) (s_BoysTakeRisk r) (s_MatchCampEthnicity r) (s_MatchTownEthnicity r) (s_MatchConflictEthnicity r) (s_FixedRoutes r) (s_FloodRulesEnabled r) (s_FloodForecaster r) (s_FloodForecasterTimescale r) (s_FloodForecasterEndTime r) (s_FloodMovechances r) (s_FloodLocWeights r) (s_FloodForecasterWeights r) (s_FloodAwarenessWeights r) (s_TakeFromPopulation r) (s_InsertDayZero r) (s_EmptyCampsOnDay0 r) (s_conflict_zone_spawning_only r) (s_camps_are_sinks r) (f (s_sum_from_camps r)) (s_conflict_driven_spawning r) (s_conflict_spawn_mode r) (s_displaced_per_conflict_day r) (s_flood_driven_spawning r) (s_flood_spawn_mode r) (s_displaced_per_flood_day r) (s_conflict_spawn_decay r) (s_conflict_spawn_decay_interval r) (s_log_agent r) (s_log_link r) (s_log_camp r) (s_granularity r).
Definition up_s_conflict_driven_spawning (f : bool -> bool) (r : settings) : settings :=
  Settings (s_MaxMoveSpeed r) (s_MaxWalkSpeed r) (s_ForeignWeight r) (s_CampWeight r) (s_ConflictWeight r) (s_ConflictMoveChance r) (s_CampMoveChance r) (s_IDPCampMoveChance r) (s_DefaultMoveChance r) (s_AwarenessLevel r) (s_CapacityBuffer r) (s_CapacityScaling r) (s_AvoidShortStints r) (s_StartOnFoot r) (s_DistanceSoftening r) (s_WeightSoftening r) (s_WeightPower r) (s_DistancePower r) (s_StayCloseToHome r) (s_HomeDistancePower r) (s_UsePopForLocWeight r) (s_PopPowerForLocWeight r) (s_MovechancePopBase r) (s_MovechancePopScaleFactor r) (s_PruningThreshold r) (s_ChildrenAvoidHazards r) (s_BoysTakeRisk r) (s_MatchCampEthnicity r) (s_MatchTownEthnicity r) (s_MatchConflictEthnicity r) (s_FixedRoutes r) (s_FloodRulesEnabled r) (s_FloodForecaster r) (s_FloodForecasterTimescale r) (s_FloodForecasterEndTime r) (s_FloodMovechances r) (s_FloodLocWeights r) (s_FloodForecasterWeights r) (s_FloodAwarenessWeights r) (s_TakeFromPopulation r) (s_InsertDayZero r) (s_EmptyCampsOnDay0 r) (s_conflict_zone_spawning_only r) (s_camps_are_sinks r) (s_sum_from_camps r) (f (s_conflict_driven_spawning r)) (s_conflict_spawn_mode r) (s_displaced_per_conflict_day r) (s_flood_driven_spawning r) (s_flood_spawn_mode r) (s_displaced_per_flood_day r) (s_conflict_spawn_decay r) (s_conflict_spawn_decay_interval r) (s_log_agent r) (s_log_link r) (s_log_camp r) (s_granularity r).
Definition up_s_conflict_spawn_mode (f : string -> string) (r : settings) : settings :=
  Settings (s_MaxMoveSpeed r) (s_MaxWalkSpeed r) (s_ForeignWeight r) (s_CampWeight r) (s_ConflictWeight r) (s_ConflictMoveChance r) (s_CampMoveChance r) (s_IDPCampMoveChance r) (s_DefaultMoveChance r) (s_AwarenessLevel r) (s_CapacityBuffer r) (s_CapacityScaling r) (s_AvoidShortStints r) (s_StartOnFoot r) (s_DistanceSoftening r) (s_WeightSoftening r) (s_WeightPower r) (s_DistancePower r) (s_StayCloseToHome r) (s_HomeDistancePower r) (s_UsePopForLocWeight r) (s_PopPowerForLocWeight r) (s_MovechancePopBase r) (s_MovechancePopScaleFactor r) (s_PruningThreshold r) (s_ChildrenAvoidHazards r) (s_BoysTakeRisk r) (s_MatchCampEthnicity r) (s_MatchTownEthnicity r) (s_MatchConflictEthnicity r) (s_FixedRoutes r) (s_FloodRulesEnabled r) (s_FloodForecaster r) (s_FloodForecasterTimescale r) (s_FloodForecasterEndTime r) (s_FloodMovechances r) (s_FloodLocWeights r) (s_FloodForecasterWeights r) (s_FloodAwarenessWeights r) (s_TakeFromPopulation r) (s_InsertDayZero r) (s_EmptyCampsOnDay0 r) (s_conflict_zone_spawning_only r) (s_camps_are_sinks r) (s_sum_from_camps r) (s_conflict_driven_spawning r) (f (s_conflict_spawn_mode r)) (s_displaced_per_conflict_day r) (s_flood_driven_spawning r) (s_flood_spawn_mode r) (s_displaced_per_flood_day r) (s_conflict_spawn_decay r) (s_conflict_spawn_decay_interval r) (s_log_agent r) (s_log_link r) (s_log_camp r) (s_granularity r).
Definition up_s_displaced_per_conflict_day (f : Q -> Q) (r : settings) : settings :=
  Settings (s_MaxMoveSpeed r) (s_MaxWalkSpeed r) (s_ForeignWeight r) (s_CampWeight r) (s_ConflictWeight r) (s_ConflictMoveChance r) (s_CampMoveChance r) (s_IDPCampMoveChance r) (s_DefaultMoveChance r) (s_AwarenessLevel r) (s_CapacityBuffer r) (s_CapacityScaling r) (s_AvoidShortStints r) (s_StartOnFoot r) (s_DistanceSoftening r) (s_WeightSoftening r) (s_WeightPower r) (s_DistancePower r) (s_StayCloseToHome r) (s_HomeDistancePower r) (s_UsePopForLocWeight r) (s_PopPowerForLocWeight r) (s_MovechancePopBase r) (s_MovechancePopScaleFactor r) (s_PruningThreshold r) (s_ChildrenAvoidHazards r) (s_BoysTakeRisk r) (s_MatchCampEthnicity r) (s_MatchTownEthnicity r) (s_MatchConflictEthnicity r) (s_FixedRoutes r) (s_FloodRulesEnabled r) (s_FloodForecaster r) (s_FloodForecasterTimescale r) (s_FloodForecasterEndTime r) (s_FloodMovechances r) (s_FloodLocWeights r) (s_FloodForecasterWeights r) (s_FloodAwarenessWeights r) (s_TakeFromPopulation r) (s_InsertDayZero r) (s_EmptyCampsOnDay0 r) (s_conflict_zone_spawning_only r) (s_camps_are_sinks r) (s_sum_from_camps r) (s_conflict_driven_spawning r) (s_conflict_spawn_mode r) (f (s_displaced_per_conflict_day r)) (s_flood_driven_spawning r) (s_flood_spawn_mode r) (s_displaced_per_flood_day r) (s_conflict_spawn_decay r) (s_conflict_spawn_decay_interval r) (s_log_agent r) (s_log_link r) (s_log_camp r) (s_granularity r).
Definition up_s_flood_driven_spawning (f : bool -> bool) (r : settings) : settings :=
  Settings (s_MaxMoveSpeed r) (s_MaxWalkSpeed r) (s_ForeignWeight r) (s_CampWeight r) (s_ConflictWeight r) (s_ConflictMoveChance r) (s_CampMoveChance r) (s_IDPCampMoveChance r) (s_DefaultMoveChance r) (s_AwarenessLevel r) (s_CapacityBuffer r) (s_CapacityScaling r) (s_AvoidShortStints r) (s_StartOnFoot r) (s_DistanceSoftening r) (s_WeightSoftening r) (s_WeightPower r) (s_DistancePower r) (s_StayCloseToHome r) (s_HomeDistancePower r) (s_UsePopForLocWeight r) (s_PopPowerForLocWeight r) (s_MovechancePopBase r) (s_MovechancePopScaleFactor r) (s_PruningThreshold r) (s_ChildrenAvoidHazards r) (s_BoysTakeRisk r) (s_MatchCampEthnicity r) (s_MatchTownEthnicity r) (s_MatchConflictEthnicity r) (s_FixedRoutes r) (s_FloodRulesEnabled r) (s_FloodForecaster r) (s_FloodForecasterTimescale r) (s_FloodForecasterEndTime r) (s_FloodMovechances r) (s_FloodLocWeights r) (s_FloodForecasterWeights r) (s_FloodAwarenessWeights r) (s_TakeFromPopulation r) (s_InsertDayZero r) (s_EmptyCampsOnDay0 r) (s_conflict_zone_spawning_only r) (s_camps_are_sinks r) (s_sum_from_camps r) (s_conflict_driven_spawning r) (s_conflict_spawn_mode r) (s_displaced_per_conflict_day r) (f (s_flood_driven_spawning r)) (s_flood_spawn_mode r) (s_displaced_per_flood_day r) (s_conflict_spawn_decay r) (s_conflict_spawn_decay_interval r) (s_log_agent r) (s_log_link r) (s_log_camp r) (s_granularity r).
Definition up_s_flood_spawn_mode (f : string -> string) (r : settings) : settings :=
  Settings (s_MaxMoveSpeed r) (s_MaxWalkSpeed r) (s_ForeignWeight r) (s_CampWeight r) (s_ConflictWeight r) (s_ConflictMoveChance r) (s_CampMoveChance r) (s_IDPCampMoveChance r) (s_DefaultMoveChance r) (s_AwarenessLevel r) (s_CapacityBuffer r) (s_CapacityScaling r) (s_AvoidShortStints r) (s_StartOnFoot r) (s_DistanceSoftening r) (s_WeightSoftening r) (s_WeightPower r) (s_DistancePower r) (s_StayCloseToHome r) (s_HomeDistancePower r) (s_UsePopForLocWeight r) (s_PopPowerForLocWeight r) (s_MovechancePopBase r) (s_MovechancePopScaleFactor r) (s_PruningThreshold r) (s_ChildrenAvoidHazards r) (s_BoysTakeRisk r) (s_MatchCampEthnicity r) (s_MatchTownEthnicity r) (s_MatchConflictEthnicity r) (s_FixedRoutes r) (s_FloodRulesEnabled r) (s_FloodForecaster r) (s_FloodForecasterTimescale r) (s_FloodForecasterEndTime r) (s_FloodMovechances r) (s_FloodLocWeights r) (s_FloodForecasterWeights r) (s_FloodAwarenessWeights r) (s_TakeFromPopulation r) (s_InsertDayZero r) (s_EmptyCampsOnDay0 r) (s_conflict_zone_spawning_only r) (s_camps_are_sinks r) (s_sum_from_camps r) (s_conflict_driven_spawning r) (s_conflict_spawn_mode r) (s_displaced_per_conflict_day r) (s_flood_driven_spawning r) (f (s_flood_spawn_mode r)) (s_displaced_per_flood_day r) (s_conflict_spawn_decay r) (s_conflict_spawn_decay_interval r) (s_log_agent r) (s_log_link r) (s_log_camp r) (s_granularity r).
Definition up_s_displaced_per_flood_day (f : (list Q) -> (list Q)) (r : settings) : settings :=
  Settings (s_MaxMoveSpeed r) (s_MaxWalkSpeed r) (s_ForeignWeight r) (s_CampWeight r) (s_ConflictWeight r) (s_ConflictMoveChance r) (s_CampMoveChance r) (s_IDPCampMoveChance r) (s_DefaultMoveChance r) (s_AwarenessLevel r) (s_CapacityBuffer r) (s_CapacityScaling r) (s_AvoidShortStints r) (s_StartOnFoot r) (s_DistanceSoftening r) (s_WeightSoftening r) (s_WeightPower r) (s_DistancePower r) (s_StayCloseToHome r) (s_HomeDistancePower r) (s_UsePopForLocWeight r) (s_PopPowerForLocWeight r) (s_MovechancePopBase r) (s_MovechancePopScaleFactor r) (s_PruningThreshold r) (s_ChildrenAvoidHazards r) (s_BoysTakeRisk r) (s_MatchCampEthnicity r) (s_MatchTownEthnicity r) (s_MatchConflictEthnicity r) (s_FixedRoutes r) (s_FloodRulesEnabled r) (s_FloodForecaster r) (s_FloodForecasterTimescale r) (s_FloodForecasterEndTime r) (s_FloodMovechances r) (s_FloodLocWeights r) (s_FloodForecasterWeights r) (s_FloodAwarenessWeights r) (s_TakeFromPopulation r) (s_InsertDayZero r) (s_EmptyCampsOnDay0 r) (s_conflict_zone_spawning_only r) (s_camps_are_sinks r) (s_sum_from_camps r) (s_conflict_driven_spawning r) (s_conflict_spawn_mode r) (s_displaced_per_conflict_day r) (s_flood_driven_spawning r) (s_flood_spawn_mode r) (f (s_displaced_per_flood_day r)) (s_conflict_spawn_decay r) (s_conflict_spawn_decay_interval r) (s_log_agent r) (s_log_link r) (s_log_camp r) (s_granularity r).
Definition up_s_conflict_spawn_decay (f : (option (list Q)) -> (option (list Q))) (r : settings) : settings :=
  Settings (s_MaxMoveSpeed r) (s_MaxWalkSpeed r) (s_ForeignWeight r) (s_CampWeight r) (s_ConflictWeight r) (s_ConflictMoveChance r) (s_CampMoveChance r) (s_IDPCampMoveChance r) (s_DefaultMoveChance r) (s_AwarenessLevel r) (s_CapacityBuffer r) (s_CapacityScaling r) (s_AvoidShortStints r) (s_StartOnFoot r) (s_DistanceSoftening r) (s_WeightSoftening r) (s_WeightPower r) (s_DistancePower r) (s_StayCloseToHome r) (s_HomeDistancePower r) (s_UsePopForLocWeight r) (s_PopPowerForLocWeight r) (s_MovechancePopBase r) (s_MovechancePopScaleFactor r) (s_PruningThreshold r) (s_ChildrenAvoidHazards r) (s_BoysTakeRisk r) (s_MatchCampEthnicity r) (s_MatchTownEthnicity r) (s_MatchConflictEthnicity r) (s_FixedRoutes r) (s_FloodRulesEnabled r) (s_FloodForecaster r) (s_FloodForecasterTimescale r) (s_FloodForecasterEndTime r) (s_FloodMovechances r) (s_FloodLocWeights r) (s_FloodForecasterWeights r) (s_FloodAwarenessWeights r) (s_TakeFromPopulation r) (s_InsertDayZero r) (s_EmptyCampsOnDay0 r) (s_conflict_zone_spawning_only r) (s_camps_are_sinks r) (s_sum_from_camps r) (s_conflict_driven_spawning r) (s_conflict_spawn_mode r) (s_displaced_per_conflict_day r) (s_flood_driven_spawning r) (s_flood_spawn_mode r) (s_displaced_per_flood_day r) (f (s_conflict_spawn_decay r)) (s_conflict_spawn_decay_interval r) (s_log_agent r) (s_log_link r) (s_log_camp r) (s_granularity r).
Definition up_s_conflict_spawn_decay_interval (f : Z -> Z) (r : settings) : settings :=
  Settings (s_MaxMoveSpeed r) (s_MaxWalkSpeed r) (s_ForeignWeight r) (s_CampWeight r) (s_ConflictWeight r) (s_ConflictMoveChance r) (s_CampMoveChance r) (s_IDPCampMoveChance r) (s_DefaultMoveChance r) (s_AwarenessLevel r) (s_CapacityBuffer r) (s_CapacityScaling r) (s_AvoidShortStints r) (s_StartOnFoot r) (s_DistanceSoftening r) (s_WeightSoftening r) (s_WeightPower r) (s_DistancePower r) (s_StayCloseToHome r) (s_HomeDistancePower r) (s_UsePopForLocWeight r) (s_PopPowerForLocWeight r) (s_MovechancePopBase r) (s_MovechancePopScaleFactor r) (s_PruningThreshold r) (s_ChildrenAvoidHazards r) (s_BoysTakeRisk r) (s_MatchCampEthnicity r) (s_MatchTownEthnicity r) (s_MatchConflictEthnicity r) (s_FixedRoutes r) (s_FloodRulesEnabled r) (s_FloodForecaster r) (s_FloodForecasterTimescale r) (s_FloodForecasterEndTime r) (s_FloodMovechances r) (s_FloodLocWeights r) (s_FloodForecasterWeights r) (s_FloodAwarenessWeights r) (s_TakeFromPopulation r) (s_InsertDayZero r) (s_EmptyCampsOnDay0 r) (s_conflict_zone_spawning_only r) (s_camps_are_sinks r) (s_sum_from_camps r) (s_conflict_driven_spawning r) (s_conflict_spawn_mode r) (s_displaced_per_conflict_day r) (s_flood_driven_spawning r) (s_flood_spawn_mode r) (s_displaced_per_flood_day r) (s_conflict_spawn_decay r) (f (s_conflict_spawn_decay_interval r)) (s_log_agent r) (s_log_link r) (s_log_camp r) (s_granularity r).
Definition up_s_log_agent (f : Z -> Z) (r : settings) : settings :=
  Settings (s_MaxMoveSpeed r) (s_MaxWalkSpeed r) (s_ForeignWeight r) (s_CampWeight r) (s_ConflictWeight r) (s_ConflictMoveChance r) (s_CampMoveChance r) (s_IDPCampMoveChance r) (s_DefaultMoveChance r) (s_AwarenessLevel r) (s_CapacityBuffer r) (s_CapacityScaling r) (s_AvoidShortStints r) (s_StartOnFoot r) (s_DistanceSoftening r) (s_WeightSoftening r) (s_WeightPower r) (s_DistancePower r) (s_StayCloseToHome r) (s_HomeDistancePower r) (s_UsePopForLocWeight r) (s_PopPowerForLocWeight r) (s_MovechancePopBase r) (s_MovechancePopScaleFactor r) (s_PruningThreshold r) (s_ChildrenAvoidHazards r) (s_BoysTakeRisk r) (s_MatchCampEthnicity r) (s_MatchTownEthnicity r) (s_MatchConflictEthnicity r) (s_FixedRoutes r) (s_FloodRulesEnabled r) (s_FloodForecaster r) (s_FloodForecasterTimescale r) (s_FloodForecasterEndTime r) (s_FloodMovechances r) (s_FloodLocWeights r) (s_FloodForecasterWeights r) (s_FloodAwarenessWeights r) (s_TakeFromPopulation r) (s_InsertDayZero r) (s_EmptyCampsOnDay0 r) (s_conflict_zone_spawning_only r) (s_camps_are_sinks r) (s_sum_from_camps r) (s_conflict_driven_spawning r) (s_conflict_spawn_mode r) (s_displaced_per_conflict_day r) (s_flood_driven_spawning r) (s_flood_spawn_mode r) (s_displaced_per_flood_day r) (s_conflict_spawn_decay r) (s_conflict_spawn_decay_interval r) (f (s_log_agent r)) (s_log_link r) (s_log_camp r) (s_granularity r).
Definition up_s_log_link (f : Z -> Z) (r : settings) : settings :=
  Settings (s_MaxMoveSpeed r) (s_MaxWalkSpeed r) (s_ForeignWeight r) (s_CampWeight r) (s_ConflictWeight r) (s_ConflictMoveChance r) (s_CampMoveChance r) (s_IDPCampMoveChance r) (s_DefaultMoveChance r) (s_AwarenessLevel r) (s_CapacityBuffer r) (s_CapacityScaling r) (s_AvoidShortStints r) (s_StartOnFoot r) (s_DistanceSoftening r) (s_WeightSoftening r) (s_WeightPower r) (s_DistancePower r) (s_StayCloseToHome r) (s_HomeDistancePower r) (s_UsePopForLocWeight r) (s_PopPowerForLocWeight r) (s_MovechancePopBase r) (s_MovechancePopScaleFactor r) (s_PruningThreshold r) (s_ChildrenAvoidHazards r) (s_BoysTakeRisk r) (s_MatchCampEthnicity r) (s_MatchTownEthnicity r) (s_MatchConflictEthnicity r) (s_FixedRoutes r) (s_FloodRulesEnabled r) (s_FloodForecaster r) (s_FloodForecasterTimescale r) (s_FloodForecasterEndTime r) (s_FloodMovechances r) (s_FloodLocWeights r) (s_FloodForecasterWeights r) (s_FloodAwarenessWeights r) (s_TakeFromPopulation r) (s_InsertDayZero r) (s_EmptyCampsOnDay0 r) (s_conflict_zone_spawning_only r) (s_camps_are_sinks r) (s_sum_from_camps r) (s_conflict_driven_spawning r) (s_conflict_spawn_mode r) (s_displaced_per_conflict_day r) (s_flood_driven_spawning r) (s_flood_spawn_mode r) (s_displaced_per_flood_day r) (s_conflict_spawn_decay r) (s_conflict_spawn_decay_interval r) (s_log_agent r) (f (s_log_link r)) (s_log_camp r) (s_granularity r).
Definition up_s_log_camp (f : Z -> Z) (r : settings) : settings :=
  Settings (s_MaxMoveSpeed r) (s_MaxWalkSpeed r) (s_ForeignWeight r) (s_CampWeight r) (s_ConflictWeight r) (s_ConflictMoveChance r) (s_CampMoveChance r) (s_IDPCampMoveChance r) (s_DefaultMoveChance r) (s_AwarenessLevel r) (s_CapacityBuffer r) (s_CapacityScaling r) (s_AvoidShortStints r) (s_StartOnFoot r) (s_DistanceSoftening r) (s_WeightSoftening r) (s_WeightPower r) (s_DistancePower r) (s_StayCloseToHome r) (s_HomeDistancePower r) (s_UsePopForLocWeight r) (s_PopPowerForLocWeight r) (s_MovechancePopBase r) (s_MovechancePopScaleFactor r) (s_PruningThreshold r) (s_ChildrenAvoidHazards r) (s_BoysTakeRisk r) (s_MatchCampEthnicity r) (s_MatchTownEthnicity r) (s_MatchConflictEthnicity r) (s_FixedRoutes r) (s_FloodRulesEnabled r) (s_FloodForecaster r) (s_FloodForecasterTimescale r) (s_FloodForecasterEndTime r) (s_FloodMovechances r) (s_FloodLocWeights r) (s_FloodForecasterWeights r) (s_FloodAwarenessWeights r) (s_TakeFromPopulation r) (s_InsertDayZero r) (s_EmptyCampsOnDay0 r) (s_conflict_zone_spawning_only r) (s_camps_are_sinks r) (s_sum_from_camps r) (s_conflict_driven_spawning r) (s_conflict_spawn_mode r) (s_displaced_per_conflict_day r) (s_flood_driven_spawning r) (s_flood_spawn_mode r) (s_displaced_per_flood_day r) (s_conflict_spawn_decay r) (s_conflict_spawn_decay_interval r) (s_log_agent r) (s_log_link r) (f (s_log_camp r)) (s_granularity r).
Definition up_s_granularity (f : string -> string) (r : settings) : settings :=
  Settings (s_MaxMoveSpeed r) (s_MaxWalkSpeed r) (s_ForeignWeight r) (s_CampWeight r) (s_ConflictWeight r) (s_ConflictMoveChance r) (s_CampMoveChance r) (s_IDPCampMoveChance r) (s_DefaultMoveChance r) (s_AwarenessLevel r) (s_CapacityBuffer r) (s_CapacityScaling r) (s_AvoidShortStints r) (s_StartOnFoot r) (s_DistanceSoftening r) (s_WeightSoftening r) (s_WeightPower r) (s_DistancePower r) (s_StayCloseToHome r) (s_HomeDistancePower r) (s_UsePopForLocWeight r) (s_PopPowerForLocWeight r) (s_MovechancePopBase r) (s_MovechancePopScaleFactor r) (s_PruningThreshold r) (s_ChildrenAvoidHazards r) (s_BoysTakeRisk r) (s_MatchCampEthnicity r) (s_MatchTownEthnicity r) (s_MatchConflictEthnicity r) (s_FixedRoutes r) (s_FloodRulesEnabled r) (s_FloodForecaster r) (s_FloodForecasterTimescale r) (s_FloodForecasterEndTime r) (s_FloodMovechances r) (s_FloodLocWeights r) (s_FloodForecasterWeights r) (s_FloodAwarenessWeights r) (s_TakeFromPopulation r) (s_InsertDayZero r) (s_EmptyCampsOnDay0 r) (s_conflict_zone_spawning_only r) (s_camps_are_sinks r) (s_sum_from_camps r) (s_conflict_driven_spawning r) (s_conflict_spawn_mode r) (s_displaced_per_conflict_day r) (s_flood_driven_spawning r) (s_flood_spawn_mode r) (s_displaced_per_flood_day r) (s_conflict_spawn_decay r) (s_conflict_spawn_decay_interval r) (s_log_agent r) (s_log_link r) (s_log_camp r) (f (s_granularity r)).

(** ** Locations

    flee/flee.py 288-408 (class Location) and flee/pflee.py 148-206.  The dictionary
    of attributes is shared by reference, hence an index. *)
Record location : Type := Location {
  l_name : pystr  (* name *);
  l_region : string;
  l_x : Q;
  l_y : Q;
  l_movechance : Q;
  l_links : list nat  (* open links, by index in the link heap *);
  l_closed_links : list nat  (* stored closed links *);
  l_routes : list (string * (Q * list string * nat))  (* fixed routes: name -> (weight, stops, end point) *);
  l_major_routes : list (list string);
  l_numAgents : Z;
  l_numAgentsOnRank : Z;
  l_capacity : Z;
  l_pop : Z;
  l_foreign : bool;
  l_country : string;
  l_conflict : Q;
  l_camp : bool;
  l_idpcamp : bool;
  l_town : bool;
  l_forward : bool;
  l_marker : bool;
  l_flood_zone : bool;
  l_time_of_conflict : Z;
  l_numAgentsSpawned : Z;
  l_numAgentsSpawnedOnRank : Z;
  l_attributes : nat  (* index in the dictionary heap *);
  l_score0 : Q  (* scores[0] *);
  l_score1 : Q  (* scores[1] *);
  l_incoming_journey_lengths : list Z
}.

Definition up_l_name (f : pystr -> pystr) (r : location) : location :=
  Location (f (l_name r)) (l_region r) (l_x r) (l_y r) (l_movechance r) (l_links r) (l_closed_links r) (l_routes r) (l_major_routes r) (l_numAgents r) (l_numAgentsOnRank r) (l_capacity r) (l_pop r) (l_foreign r) (l_country r) (l_conflict r) (l_camp r) (l_idpcamp r) (l_town r) (l_forward r) (l_marker r) (l_flood_zone r) (l_time_of_conflict r) (l_numAgentsSpawned r) (l_numAgentsSpawnedOnRank r) (l_attributes r) (l_score0 r) (l_score1 r) (l_incoming_journey_lengths r).
Definition up_l_region (f : string -> string) (r : location) : location :=
  Location (l_name r) (f (l_region r)) (l_x r) (l_y r) (l_movechance r) (l_links r) (l_closed_links r) (l_routes r) (l_major_routes r) (l_numAgents r) (l_numAgentsOnRank r) (l_capacity r) (l_pop r) (l_foreign r) (l_country r) (l_conflict r) (l_camp r) (l_idpcamp r) (l_town r) (l_forward r) (l_marker r) (l_flood_zone r) (l_time_of_conflict r) (l_numAgentsSpawned r) (l_numAgentsSpawnedOnRank r) (l_attributes r) (l_score0 r) (l_score1 r) (l_incoming_journey_lengths r).
Definition up_l_x (f : Q -> Q) (r : location) : location :=
  Location (l_name r) (l_region r) (f (l_x r)) (l_y r) (l_movechance r) (l_links r) (l_closed_links r) (l_routes r) (l_major_routes r) (l_numAgents r) (l_numAgentsOnRank r) (l_capacity r) (l_pop r) (l_foreign r) (l_country r) (l_conflict r) (l_camp r) (l_idpcamp r) (l_town r) (l_forward r) (l_marker r) (l_flood_zone r) (l_time_of_conflict r) (l_numAgentsSpawned r) (l_numAgentsSpawnedOnRank r) (l_attributes r) (l_score0 r) (l_score1 r) (l_incoming_journey_lengths r).
Definition up_l_y (f : Q -> Q) (r : location) : location :=
  Location (l_name r) (l_region r) (l_x r) (f (l_y r)) (l_movechance r) (l_links r) (l_closed_links r) (l_routes r) (l_major_routes r) (l_numAgents r) (l_numAgentsOnRank r) (l_capacity r) (l_pop r) (l_foreign r) (l_country r) (l_conflict r) (l_camp r) (l_idpcamp r) (l_town r) (l_forward r) (l_marker r) (l_flood_zone r) (l_time_of_conflict r) (l_numAgentsSpawned r) (l_numAgentsSpawnedOnRank r) (l_attributes r) (l_score0 r) (l_score1 r) (l_incoming_journey_lengths r).
Definition up_l_movechance (f : Q -> Q) (r : location) : location :=
  Location (l_name r) (l_region r) (l_x r) (l_y r) (f (l_movechance r)) (l_links r) (l_closed_links r) (l_routes r) (l_major_routes r) (l_numAgents r) (l_numAgentsOnRank r) (l_capacity r) (l_pop r) (l_foreign r) (l_country r) (l_conflict r) (l_camp r) (l_idpcamp r) (l_town r) (l_forward r) (l_marker r) (l_flood_zone r) (l_time_of_conflict r) (l_numAgentsSpawned r) (l_numAgentsSpawnedOnRank r) (l_attributes r) (l_score0 r) (l_score1 r) (l_incoming_journey_lengths r).
Definition up_l_links (f : (list nat) -> (list nat)) (r : location) : location :=
  Location (l_name r) (l_region r) (l_x r) (l_y r) (l_movechance r) (f (l_links r)) (l_closed_links r) (l_routes r) (l_major_routes r) (l_numAgents r) (l_numAgentsOnRank r) (l_capacity r) (l_pop r) (l_foreign r) (l_country r) (l_conflict r) (l_camp r) (l_idpcamp r) (l_town r) (l_forward r) (l_marker r) (l_flood_zone r) (l_time_of_conflict r) (l_numAgentsSpawned r) (l_numAgentsSpawnedOnRank r) (l_attributes r) (l_score0 r) (l_score1 r) (l_incoming_journey_lengths r).
Definition up_l_closed_links (f : (list nat) -> (list nat)) (r : location) : location :=
  Location (l_name r) (l_region r) (l_x r) (l_y r) (l_movechance r) (l_links r) (f (l_closed_links r)) (l_routes r) (l_major_routes r) (l_numAgents r) (l_numAgentsOnRank r) (l_capacity r) (l_pop r) (l_foreign r) (l_country r) (l_conflict r) (l_camp r) (l_idpcamp r) (l_town r) (l_forward r) (l_marker r) (l_flood_zone r) (l_time_of_conflict r) (l_numAgentsSpawned r) (l_numAgentsSpawnedOnRank r) (l_attributes r) (l_score0 r) (l_score1 r) (l_incoming_journey_lengths r).
Definition up_l_routes (f : (list (string * (Q * list string * nat))) -> (list (string * (Q * list string * nat)))) (r : location) : location :=
  Location (l_name r) (l_region r) (l_x r) (l_y r) (l_movechance r) (l_links r) (l_closed_links r) (f (l_routes r)) (l_major_routes r) (l_numAgents r) (l_numAgentsOnRank r) (l_capacity r) (l_pop r) (l_foreign r) (l_country r) (l_conflict r) (l_camp r) (l_idpcamp r) (l_town r) (l_forward r) (l_marker r) (l_flood_zone r) (l_time_of_conflict r) (l_numAgentsSpawned r) (l_numAgentsSpawnedOnRank r) (l_attributes r) (l_score0 r) (l_score1 r) (l_incoming_journey_lengths r).
Definition up_l_major_routes (f : (list (list string)) -> (list (list string))) (r : location) : location :=
  Location (l_name r) (l_region r) (l_x r) (l_y r) (l_movechance r) (l_links r) (l_closed_links r) (l_routes r) (f (l_major_routes r)) (l_numAgents r) (l_numAgentsOnRank r) (l_capacity r) (l_pop r) (l_foreign r) (l_country r) (l_conflict r) (l_camp r) (l_idpcamp r) (l_town r) (l_forward r) (l_marker r) (l_flood_zone r) (l_time_of_conflict r) (l_numAgentsSpawned r) (l_numAgentsSpawnedOnRank r) (l_attributes r) (l_score0 r) (l_score1 r) (l_incoming_journey_lengths r).
Definition up_l_numAgents (f : Z -> Z) (r : location) : location :=
  Location (l_name r) (l_region r) (l_x r) (l_y r) (l_movechance r) (l_links r) (l_closed_links r) (l_routes r) (l_major_routes r) (f (l_numAgents r)) (l_numAgentsOnRank r) (l_capacity r) (l_pop r) (l_foreign r) (l_country r) (l_conflict r) (l_camp r) (l_idpcamp r) (l_town r) (l_forward r) (l_marker r) (l_flood_zone r) (l_time_of_conflict r) (l_numAgentsSpawned r) (l_numAgentsSpawnedOnRank r) (l_attributes r) (l_score0 r) (l_score1 r) (l_incoming_journey_lengths r).
Definition up_l_numAgentsOnRank (f : Z -> Z) (r : location) : location :=
  Location (l_name r) (l_region r) (l_x r) (l_y r) (l_movechance r) (l_links r) (l_closed_links r) (l_routes r) (l_major_routes r) (l_numAgents r) (f (l_numAgentsOnRank r)) (l_capacity r) (l_pop r) (l_foreign r) (l_country r) (l_conflict r) (l_camp r) (l_idpcamp r) (l_town r) (l_forward r) (l_marker r) (l_flood_zone r) (l_time_of_conflict r) (l_numAgentsSpawned r) (l_numAgentsSpawnedOnRank r) (l_attributes r) (l_score0 r) (l_score1 r) (l_incoming_journey_lengths r).
Definition up_l_capacity (f : Z -> Z) (r : location) : location :=
  Location (l_name r) (l_region r) (l_x r) (l_y r) (l_movechance r) (l_links r) (l_closed_links r) (l_routes r) (l_major_routes r) (l_numAgents r) (l_numAgentsOnRank r) (f (l_capacity r)) (l_pop r) (l_foreign r) (l_country r) (l_conflict r) (l_camp r) (l_idpcamp r) (l_town r) (l_forward r) (l_marker r) (l_flood_zone r) (l_time_of_conflict r) (l_numAgentsSpawned r) (l_numAgentsSpawnedOnRank r) (l_attributes r) (l_score0 r) (l_score1 r) (l_incoming_journey_lengths r).
Definition up_l_pop (f : Z -> Z) (r : location) : location :=
  Location (l_name r) (l_region r) (l_x r) (l_y r) (l_movechance r) (l_links r) (l_closed_links r) (l_routes r) (l_major_routes r) (l_numAgents r) (l_numAgentsOnRank r) (l_capacity r) (f (l_pop r)) (l_foreign r) (l_country r) (l_conflict r) (l_camp r) (l_idpcamp r) (l_town r) (l_forward r) (l_marker r) (l_flood_zone r) (l_time_of_conflict r) (l_numAgentsSpawned r) (l_numAgentsSpawnedOnRank r) (l_attributes r) (l_score0 r) (l_score1 r) (l_incoming_journey_lengths r).
Definition up_l_foreign (f : bool -> bool) (r : location) : location :=
  Location (l_name r) (l_region r) (l_x r) (l_y r) (l_movechance r) (l_links r) (l_closed_links r) (l_routes r) (l_major_routes r) (l_numAgents r) (l_numAgentsOnRank r) (l_capacity r) (l_pop r) (f (l_foreign r)) (l_country r) (l_conflict r) (l_camp r) (l_idpcamp r) (l_town r) (l_forward r) (l_marker r) (l_flood_zone r) (l_time_of_conflict r) (l_numAgentsSpawned r) (l_numAgentsSpawnedOnRank r) (l_attributes r) (l_score0 r) (l_score1 r) (l_incoming_journey_lengths r).
Definition up_l_country (f : string -> string) (r : location) : location :=
  Location (l_name r) (l_region r) (l_x r) (l_y r) (l_movechance r) (l_links r) (l_closed_links r) (l_routes r) (l_major_routes r) (l_numAgents r) (l_numAgentsOnRank r) (l_capacity r) (l_pop r) (l_foreign r) (f (l_country r)) (l_conflict r) (l_camp r) (l_idpcamp r) (l_town r) (l_forward r) (l_marker r) (l_flood_zone r) (l_time_of_conflict r) (l_numAgentsSpawned r) (l_numAgentsSpawnedOnRank r) (l_attributes r) (l_score0 r) (l_score1 r) (l_incoming_journey_lengths r).
Definition up_l_conflict (f : Q -> Q) (r : location) : location :=
  Location (l_name r) (l_region r) (l_x r) (l_y r) (l_movechance r) (l_links r) (l_closed_links r) (l_routes r) (l_major_routes r) (l_numAgents r) (l_numAgentsOnRank r) (l_capacity r) (l_pop r) (l_foreign r) (l_country r) (f (l_conflict r)) (l_camp r) (l_idpcamp r) (l_town r) (l_forward r) (l_marker r) (l_flood_zone r) (l_time_of_conflict r) (l_numAgentsSpawned r) (l_numAgentsSpawnedOnRank r) (l_attributes r) (l_score0 r) (l_score1 r) (l_incoming_journey_lengths r).
Definition up_l_camp (f : bool -> bool) (r : location) : location :=
  Location (l_name r) (l_region r) (l_x r) (l_y r) (l_movechance r) (l_links r) (l_closed_links r) (l_routes r) (l_major_routes r) (l_numAgents r) (l_numAgentsOnRank r) (l_capacity r) (l_pop r) (l_foreign r) (l_country r) (l_conflict r) (f (l_camp r)) (l_idpcamp r) (l_town r) (l_forward r) (l_marker r) (l_flood_zone r) (l_time_of_conflict r) (l_numAgentsSpawned r) (l_numAgentsSpawnedOnRank r) (l_attributes r) (l_score0 r) (l_score1 r) (l_incoming_journey_lengths r).
Definition up_l_idpcamp (f : bool -> bool) (r : location) : location :=
  Location (l_name r) (l_region r) (l_x r) (l_y r) (l_movechance r) (l_links r) (l_closed_links r) (l_routes r) (l_major_routes r) (l_numAgents r) (l_numAgentsOnRank r) (l_capacity r) (l_pop r) (l_foreign r) (l_country r) (l_conflict r) (l_camp r) (f (l_idpcamp r)) (l_town r) (l_forward r) (l_marker r) (l_flood_zone r) (l_time_of_conflict r) (l_numAgentsSpawned r) (l_numAgentsSpawnedOnRank r) (l_attributes r) (l_score0 r) (l_score1 r) (l_incoming_journey_lengths r).
Definition up_l_town (f : bool -> bool) (r : location) : location :=
  Location (l_name r) (l_region r) (l_x r) (l_y r) (l_movechance r) (l_links r) (l_closed_links r) (l_routes r) (l_major_routes r) (l_numAgents r) (l_numAgentsOnRank r) (l_capacity r) (l_pop r) (l_foreign r) (l_country r) (l_conflict r) (l_camp r) (l_idpcamp r) (f (l_town r)) (l_forward r) (l_marker r) (l_flood_zone r) (l_time_of_conflict r) (l_numAgentsSpawned r) (l_numAgentsSpawnedOnRank r) (l_attributes r) (l_score0 r) (l_score1 r) (l_incoming_journey_lengths r).
Definition up_l_forward (f : bool -> bool) (r : location) : location :=
  Location (l_name r) (l_region r) (l_x r) (l_y r) (l_movechance r) (l_links r) (l_closed_links r) (l_routes r) (l_major_routes r) (l_numAgents r) (l_numAgentsOnRank r) (l_capacity r) (l_pop r) (l_foreign r) (l_country r) (l_conflict r) (l_camp r) (l_idpcamp r) (l_town r) (f (l_forward r)) (l_marker r) (l_flood_zone r) (l_time_of_conflict r) (l_numAgentsSpawned r) (l_numAgentsSpawnedOnRank r) (l_attributes r) (l_score0 r) (l_score1 r) (l_incoming_journey_lengths r).
Definition up_l_marker (f : bool -> bool) (r : location) : location :=
  Location (l_name r) (l_region r) (l_x r) (l_y r) (l_movechance r) (l_links r) (l_closed_links r) (l_routes r) (l_major_routes r) (l_numAgents r) (l_numAgentsOnRank r) (l_capacity r) (l_pop r) (l_foreign r) (l_country r) (l_conflict r) (l_camp r) (l_idpcamp r) (l_town r) (l_forward r) (f (l_marker r)) (l_flood_zone r) (l_time_of_conflict r) (l_numAgentsSpawned r) (l_numAgentsSpawnedOnRank r) (l_attributes r) (l_score0 r) (l_score1 r) (l_incoming_journey_lengths r).
Definition up_l_flood_zone (f : bool -> bool) (r : location) : location :=
  Location (l_name r) (l_region r) (l_x r) (l_y r) (l_movechance r) (l_links r) (l_closed_links r) (l_routes r) (l_major_routes r) (l_numAgents r) (l_numAgentsOnRank r) (l_capacity r) (l_pop r) (l_foreign r) (l_country r) (l_conflict r) (l_camp r) (l_idpcamp r) (l_town r) (l_forward r) (l_marker r) (f (l_flood_zone r)) (l_time_of_conflict r) (l_numAgentsSpawned r) (l_numAgentsSpawnedOnRank r) (l_attributes r) (l_score0 r) (l_score1 r) (l_incoming_journey_lengths r).
Definition up_l_time_of_conflict (f : Z -> Z) (r : location) : location :=
  Location (l_name r) (l_region r) (l_x r) (l_y r) (l_movechance r) (l_links r) (l_closed_links r) (l_routes r) (l_major_routes r) (l_numAgents r) (l_numAgentsOnRank r) (l_capacity r) (l_pop r) (l_foreign r) (l_country r) (l_conflict r) (l_camp r) (l_idpcamp r) (l_town r) (l_forward r) (l_marker r) (l_flood_zone r) (f (l_time_of_conflict r)) (l_numAgentsSpawned r) (l_numAgentsSpawnedOnRank r) (l_attributes r) (l_score0 r) (l_score1 r) (l_incoming_journey_lengths r).
Definition up_l_numAgentsSpawned (f : Z -> Z) (r : location) : location :=
  Location (l_name r) (l_region r) (l_x r) (l_y r) (l_movechance r) (l_links r) (l_closed_links r) (l_routes r) (l_major_routes r) (l_numAgents r) (l_numAgentsOnRank r) (l_capacity r) (l_pop r) (l_foreign r) (l_country r) (l_conflict r) (l_camp r) (l_idpcamp r) (l_town r) (l_forward r) (l_marker r) (l_flood_zone r) (l_time_of_conflict r) (f (l_numAgentsSpawned r)) (l_numAgentsSpawnedOnRank r) (l_attributes r) (l_score0 r) (l_score1 r) (l_incoming_journey_lengths r).
Definition up_l_numAgentsSpawnedOnRank (f : Z -> Z) (r : location) : location :=
  Location (l_name r) (l_region r) (l_x r) (l_y r) (l_movechance r) (l_links r) (l_closed_links r) (l_routes r) (l_major_routes r) (l_numAgents r) (l_numAgentsOnRank r) (l_capacity r) (l_pop r) (l_foreign r) (l_country r) (l_conflict r) (l_camp r) (l_idpcamp r) (l_town r) (l_forward r) (l_marker r) (l_flood_zone r) (l_time_of_conflict r) (l_numAgentsSpawned r) (f (l_numAgentsSpawnedOnRank r)) (l_attributes r) (l_score0 r) (l_score1 r) (l_incoming_journey_lengths r).
Definition up_l_attributes (f : nat -> nat) (r : location) : location :=
  Location (l_name r) (l_region r) (l_x r) (l_y r) (l_movechance r) (l_links r) (l_closed_links r) (l_routes r) (l_major_routes r) (l_numAgents r) (l_numAgentsOnRank r) (l_capacity r) (l_pop r) (l_foreign r) (l_country r) (l_conflict r) (l_camp r) (l_idpcamp r) (l_town r) (l_forward r) (l_marker r) (l_flood_zone r) (l_time_of_conflict r) (l_numAgentsSpawned r) (l_numAgentsSpawnedOnRank r) (f (l_attributes r)) (l_score0 r) (l_score1 r) (l_incoming_journey_lengths r).
Definition up_l_score0 (f : Q -> Q) (r : location) : location :=
  Location (l_name r) (l_region r) (l_x r) (l_y r) (l_movechance r) (l_links r) (l_closed_links r) (l_routes r) (l_major_routes r) (l_numAgents r) (l_numAgentsOnRank r) (l_capacity r) (l_pop r) (l_foreign r) (l_country r) (l_conflict r) (l_camp r) (l_idpcamp r) (l_town r) (l_forward r) (l_marker r) (l_flood_zone r) (l_time_of_conflict r) (l_numAgentsSpawned r) (l_numAgentsSpawnedOnRank r) (l_attributes r) (f (l_score0 r)) (l_score1 r) (l_incoming_journey_lengths r).
Definition up_l_score1 (f : Q -> Q) (r : location) : location :=
  Location (l_name r) (l_region r) (l_x r) (l_y r) (l_movechance r) (l_links r) (l_closed_links r) (l_routes r) (l_major_routes r) (l_numAgents r) (l_numAgentsOnRank r) (l_capacity r) (l_pop r) (l_foreign r) (l_country r) (l_conflict r) (l_camp r) (l_idpcamp r) (l_town r) (l_forward r) (l_marker r) (l_flood_zone r) (l_time_of_conflict r) (l_numAgentsSpawned r) (l_numAgentsSpawnedOnRank r) (l_attributes r) (l_score0 r) (f (l_score1 r)) (l_incoming_journey_lengths r).
Definition up_l_incoming_journey_lengths (f : (list Z) -> (list Z)) (r : location) : location :=
  Location (l_name r) (l_region r) (l_x r) (l_y r) (l_movechance r) (l_links r) (l_closed_links r) (l_routes r) (l_major_routes r) (l_numAgents r) (l_numAgentsOnRank r) (l_capacity r) (l_pop r) (l_foreign r) (l_country r) (l_conflict r) (l_camp r) (l_idpcamp r) (l_town r) (l_forward r) (l_marker r) (l_flood_zone r) (l_time_of_conflict r) (l_numAgentsSpawned r) (l_numAgentsSpawnedOnRank r) (l_attributes r) (l_score0 r) (l_score1 r) (f (l_incoming_journey_lengths r)).

(** ** Links

    flee/flee.py 643-682 (class Link).  [name], [x], [y] are functions of the end
    points and are not stored. *)
Record link : Type := Link {
  k_startpoint : nat  (* index of a location *);
  k_endpoint : nat;
  k_closed : bool;
  k_distance : Q;
  k_numAgents : Z;
  k_cumNumAgents : Z;
  k_numAgentsOnRank : Z;
  k_forced_redirection : bool;
  k_attributes : nat  (* index in the dictionary heap *);
  k_cumByAttribute : list (string * list (pyval * Z))
}.

Definition up_k_startpoint (f : nat -> nat) (r : link) : link :=
  Link (f (k_startpoint r)) (k_endpoint r) (k_closed r) (k_distance r) (k_numAgents r) (k_cumNumAgents r) (k_numAgentsOnRank r) (k_forced_redirection r) (k_attributes r) (k_cumByAttribute r).
Definition up_k_endpoint (f : nat -> nat) (r : link) : link :=
  Link (k_startpoint r) (f (k_endpoint r)) (k_closed r) (k_distance r) (k_numAgents r) (k_cumNumAgents r) (k_numAgentsOnRank r) (k_forced_redirection r) (k_attributes r) (k_cumByAttribute r).
Definition up_k_closed (f : bool -> bool) (r : link) : link :=
  Link (k_startpoint r) (k_endpoint r) (f (k_closed r)) (k_distance r) (k_numAgents r) (k_cumNumAgents r) (k_numAgentsOnRank r) (k_forced_redirection r) (k_attributes r) (k_cumByAttribute r).
Definition up_k_distance (f : Q -> Q) (r : link) : link :=
  Link (k_startpoint r) (k_endpoint r) (k_closed r) (f (k_distance r)) (k_numAgents r) (k_cumNumAgents r) (k_numAgentsOnRank r) (k_forced_redirection r) (k_attributes r) (k_cumByAttribute r).
Definition up_k_numAgents (f : Z -> Z) (r : link) : link :=
  Link (k_startpoint r) (k_endpoint r) (k_closed r) (k_distance r) (f (k_numAgents r)) (k_cumNumAgents r) (k_numAgentsOnRank r) (k_forced_redirection r) (k_attributes r) (k_cumByAttribute r).
Definition up_k_cumNumAgents (f : Z -> Z) (r : link) : link :=
  Link (k_startpoint r) (k_endpoint r) (k_closed r) (k_distance r) (k_numAgents r) (f (k_cumNumAgents r)) (k_numAgentsOnRank r) (k_forced_redirection r) (k_attributes r) (k_cumByAttribute r).
Definition up_k_numAgentsOnRank (f : Z -> Z) (r : link) : link :=
  Link (k_startpoint r) (k_endpoint r) (k_closed r) (k_distance r) (k_numAgents r) (k_cumNumAgents r) (f (k_numAgentsOnRank r)) (k_forced_redirection r) (k_attributes r) (k_cumByAttribute r).
Definition up_k_forced_redirection (f : bool -> bool) (r : link) : link :=
  Link (k_startpoint r) (k_endpoint r) (k_closed r) (k_distance r) (k_numAgents r) (k_cumNumAgents r) (k_numAgentsOnRank r) (f (k_forced_redirection r)) (k_attributes r) (k_cumByAttribute r).
Definition up_k_attributes (f : nat -> nat) (r : link) : link :=
  Link (k_startpoint r) (k_endpoint r) (k_closed r) (k_distance r) (k_numAgents r) (k_cumNumAgents r) (k_numAgentsOnRank r) (k_forced_redirection r) (f (k_attributes r)) (k_cumByAttribute r).
Definition up_k_cumByAttribute (f : (list (string * list (pyval * Z))) -> (list (string * list (pyval * Z)))) (r : link) : link :=
  Link (k_startpoint r) (k_endpoint r) (k_closed r) (k_distance r) (k_numAgents r) (k_cumNumAgents r) (k_numAgentsOnRank r) (k_forced_redirection r) (k_attributes r) (f (k_cumByAttribute r)).

(** ** Agents *)

(** The attribute [location] of an agent: a location, a link, or [None].  [PGone i]
    stands for [None]; the index records where the agent was when it was deactivated
    (a ghost value, never read by the program). *)
Inductive pos : Type :=
| PLoc (i : nat)
| PLink (k : nat)
| PGone (i : nat).

(** A stop of a route: a location name, or (with awareness level 0) a number. *)
Inductive rtok : Type :=
| RName (s : string)
| RIdx (z : Z).

(** flee/flee.py 24-85 (class Person). *)
Record agent : Type := Agent {
  a_location : pos;
  a_home_location : nat;
  a_timesteps_since_departure : Z;
  a_places_travelled : Z;
  a_recent_travel_distance : Q;
  a_distance_moved_this_timestep : Q;
  a_travelling : bool;
  a_distance_travelled_on_link : Q;
  a_attributes : dict;
  a_route : option (list rtok)  (* None is Python's None *);
  a_distance_travelled : Q;
  a_locations_visited : list nat  (* links *)
}.

Definition up_a_location (f : pos -> pos) (r : agent) : agent :=
  Agent (f (a_location r)) (a_home_location r) (a_timesteps_since_departure r) (a_places_travelled r) (a_recent_travel_distance r) (a_distance_moved_this_timestep r) (a_travelling r) (a_distance_travelled_on_link r) (a_attributes r) (a_route r) (a_distance_travelled r) (a_locations_visited r).
Definition up_a_home_location (f : nat -> nat) (r : agent) : agent :=
  Agent (a_location r) (f (a_home_location r)) (a_timesteps_since_departure r) (a_places_travelled r) (a_recent_travel_distance r) (a_distance_moved_this_timestep r) (a_travelling r) (a_distance_travelled_on_link r) (a_attributes r) (a_route r) (a_distance_travelled r) (a_locations_visited r).
Definition up_a_timesteps_since_departure (f : Z -> Z) (r : agent) : agent :=
  Agent (a_location r) (a_home_location r) (f (a_timesteps_since_departure r)) (a_places_travelled r) (a_recent_travel_distance r) (a_distance_moved_this_timestep r) (a_travelling r) (a_distance_travelled_on_link r) (a_attributes r) (a_route r) (a_distance_travelled r) (a_locations_visited r).
Definition up_a_places_travelled (f : Z -> Z) (r : agent) : agent :=
  Agent (a_location r) (a_home_location r) (a_timesteps_since_departure r) (f (a_places_travelled r)) (a_recent_travel_distance r) (a_distance_moved_this_timestep r) (a_travelling r) (a_distance_travelled_on_link r) (a_attributes r) (a_route r) (a_distance_travelled r) (a_locations_visited r).
Definition up_a_recent_travel_distance (f : Q -> Q) (r : agent) : agent :=
  Agent (a_location r) (a_home_location r) (a_timesteps_since_departure r) (a_places_travelled r) (f (a_recent_travel_distance r)) (a_distance_moved_this_timestep r) (a_travelling r) (a_distance_travelled_on_link r) (a_attributes r) (a_route r) (a_distance_travelled r) (a_locations_visited r).
Definition up_a_distance_moved_this_timestep (f : Q -> Q) (r : agent) : agent :=
  Agent (a_location r) (a_home_location r) (a_timesteps_since_departure r) (a_places_travelled r) (a_recent_travel_distance r) (f (a_distance_moved_this_timestep r)) (a_travelling r) (a_distance_travelled_on_link r) (a_attributes r) (a_route r) (a_distance_travelled r) (a_locations_visited r).
Definition up_a_travelling (f : bool -> bool) (r : agent) : agent :=
  Agent (a_location r) (a_home_location r) (a_timesteps_since_departure r) (a_places_travelled r) (a_recent_travel_distance r) (a_distance_moved_this_timestep r) (f (a_travelling r)) (a_distance_travelled_on_link r) (a_attributes r) (a_route r) (a_distance_travelled r) (a_locations_visited r).
Definition up_a_distance_travelled_on_link (f : Q -> Q) (r : agent) : agent :=
  Agent (a_location r) (a_home_location r) (a_timesteps_since_departure r) (a_places_travelled r) (a_recent_travel_distance r) (a_distance_moved_this_timestep r) (a_travelling r) (f (a_distance_travelled_on_link r)) (a_attributes r) (a_route r) (a_distance_travelled r) (a_locations_visited r).
Definition up_a_attributes (f : dict -> dict) (r : agent) : agent :=
  Agent (a_location r) (a_home_location r) (a_timesteps_since_departure r) (a_places_travelled r) (a_recent_travel_distance r) (a_distance_moved_this_timestep r) (a_travelling r) (a_distance_travelled_on_link r) (f (a_attributes r)) (a_route r) (a_distance_travelled r) (a_locations_visited r).
Definition up_a_route (f : (option (list rtok)) -> (option (list rtok))) (r : agent) : agent :=
  Agent (a_location r) (a_home_location r) (a_timesteps_since_departure r) (a_places_travelled r) (a_recent_travel_distance r) (a_distance_moved_this_timestep r) (a_travelling r) (a_distance_travelled_on_link r) (a_attributes r) (f (a_route r)) (a_distance_travelled r) (a_locations_visited r).
Definition up_a_distance_travelled (f : Q -> Q) (r : agent) : agent :=
  Agent (a_location r) (a_home_location r) (a_timesteps_since_departure r) (a_places_travelled r) (a_recent_travel_distance r) (a_distance_moved_this_timestep r) (a_travelling r) (a_distance_travelled_on_link r) (a_attributes r) (a_route r) (f (a_distance_travelled r)) (a_locations_visited r).
Definition up_a_locations_visited (f : (list nat) -> (list nat)) (r : agent) : agent :=
  Agent (a_location r) (a_home_location r) (a_timesteps_since_departure r) (a_places_travelled r) (a_recent_travel_distance r) (a_distance_moved_this_timestep r) (a_travelling r) (a_distance_travelled_on_link r) (a_attributes r) (a_route r) (a_distance_travelled r) (f (a_locations_visited r)).

(** ** Ecosystem *)

(** flee/flee.py 792 and flee/InputGeography.py 562-564: one entry
    [[type, source, dest, start, end]] of the closure list. *)
Record closure : Type := Closure {
  c_kind : string; c_source : pystr; c_dest : pystr; c_start : Z; c_end : Z }.

(** One line of agents.out (flee/Diagnostics.py 99-115, 129-146, 158-174).  The hop
    number is 0 for the main line of an agent. *)
Record agent_row : Type := AgentRow {
  ar_time : Z; ar_hop : Z; ar_agent : nat; ar_home : string; ar_loc : string;
  ar_x : Q; ar_y : Q; ar_travelling : bool; ar_distance_travelled : Q;
  ar_places : Z; ar_moved : Q; ar_attributes : list pyval }.

(** One line of links.out (flee/Diagnostics.py 228-285); [None] is the line "total". *)
Record link_row : Type := LinkRow {
  lr_time : Z; lr_start : string; lr_end : string; lr_count : Z;
  lr_attribute : option (string * pyval) }.

(** flee/flee.py 771-800 (class Ecosystem), flee/pflee.py 376-424. *)
Record eco : Type := Eco {
  e_locations : list location;
  e_locationNames : list pystr;
  e_links : list link  (* heap of all link objects ever created *);
  e_dicts : list dict  (* heap of attribute dictionaries *);
  e_agents : list agent;
  e_closures : list closure;
  e_time : Z;
  e_spawn_weights : list Q;
  e_num_arrivals : list Z;
  e_travel_durations : list Q;
  e_agents_out : list agent_row  (* contents of agents.out.<rank> *);
  e_links_out : list link_row  (* contents of links.out.<rank> *);
  e_par : bool  (* true for pflee.Ecosystem, false for flee.Ecosystem *);
  e_rank : Z  (* MPI rank (pflee) *);
  e_mpi_size : Z  (* number of ranks (pflee) *);
  e_total_agents : Z  (* total_agents (pflee) *)
}.

Definition up_e_locations (f : (list location) -> (list location)) (r : eco) : eco :=
  Eco (f (e_locations r)) (e_locationNames r) (e_links r) (e_dicts r) (e_agents r) (e_closures r) (e_time r) (e_spawn_weights r) (e_num_arrivals r) (e_travel_durations r) (e_agents_out r) (e_links_out r) (e_par r) (e_rank r) (e_mpi_size r) (e_total_agents r).
Definition up_e_locationNames (f : (list pystr) -> (list pystr)) (r : eco) : eco :=
  Eco (e_locations r) (f (e_locationNames r)) (e_links r) (e_dicts r) (e_agents r) (e_closures r) (e_time r) (e_spawn_weights r) (e_num_arrivals r) (e_travel_durations r) (e_agents_out r) (e_links_out r) (e_par r) (e_rank r) (e_mpi_size r) (e_total_agents r).
Definition up_e_links (f : (list link) -> (list link)) (r : eco) : eco :=
  Eco (e_locations r) (e_locationNames r) (f (e_links r)) (e_dicts r) (e_agents r) (e_closures r) (e_time r) (e_spawn_weights r) (e_num_arrivals r) (e_travel_durations r) (e_agents_out r) (e_links_out r) (e_par r) (e_rank r) (e_mpi_size r) (e_total_agents r).
Definition up_e_dicts (f : (list dict) -> (list dict)) (r : eco) : eco :=
  Eco (e_locations r) (e_locationNames r) (e_links r) (f (e_dicts r)) (e_agents r) (e_closures r) (e_time r) (e_spawn_weights r) (e_num_arrivals r) (e_travel_durations r) (e_agents_out r) (e_links_out r) (e_par r) (e_rank r) (e_mpi_size r) (e_total_agents r).
Definition up_e_agents (f : (list agent) -> (list agent)) (r : eco) : eco :=
  Eco (e_locations r) (e_locationNames r) (e_links r) (e_dicts r) (f (e_agents r)) (e_closures r) (e_time r) (e_spawn_weights r) (e_num_arrivals r) (e_travel_durations r) (e_agents_out r) (e_links_out r) (e_par r) (e_rank r) (e_mpi_size r) (e_total_agents r).
Definition up_e_closures (f : (list closure) -> (list closure)) (r : eco) : eco :=
  Eco (e_locations r) (e_locationNames r) (e_links r) (e_dicts r) (e_agents r) (f (e_closures r)) (e_time r) (e_spawn_weights r) (e_num_arrivals r) (e_travel_durations r) (e_agents_out r) (e_links_out r) (e_par r) (e_rank r) (e_mpi_size r) (e_total_agents r).
Definition up_e_time (f : Z -> Z) (r : eco) : eco :=
  Eco (e_locations r) (e_locationNames r) (e_links r) (e_dicts r) (e_agents r) (e_closures r) (f (e_time r)) (e_spawn_weights r) (e_num_arrivals r) (e_travel_durations r) (e_agents_out r) (e_links_out r) (e_par r) (e_rank r) (e_mpi_size r) (e_total_agents r).
Definition up_e_spawn_weights (f : (list Q) -> (list Q)) (r : eco) : eco :=
  Eco (e_locations r) (e_locationNames r) (e_links r) (e_dicts r) (e_agents r) (e_closures r) (e_time r) (f (e_spawn_weights r)) (e_num_arrivals r) (e_travel_durations r) (e_agents_out r) (e_links_out r) (e_par r) (e_rank r) (e_mpi_size r) (e_total_agents r).
Definition up_e_num_arrivals (f : (list Z) -> (list Z)) (r : eco) : eco :=
  Eco (e_locations r) (e_locationNames r) (e_links r) (e_dicts r) (e_agents r) (e_closures r) (e_time r) (e_spawn_weights r) (f (e_num_arrivals r)) (e_travel_durations r) (e_agents_out r) (e_links_out r) (e_par r) (e_rank r) (e_mpi_size r) (e_total_agents r).
Definition up_e_travel_durations (f : (list Q) -> (list Q)) (r : eco) : eco :=
  Eco (e_locations r) (e_locationNames r) (e_links r) (e_dicts r) (e_agents r) (e_closures r) (e_time r) (e_spawn_weights r) (e_num_arrivals r) (f (e_travel_durations r)) (e_agents_out r) (e_links_out r) (e_par r) (e_rank r) (e_mpi_size r) (e_total_agents r).
Definition up_e_agents_out (f : (list agent_row) -> (list agent_row)) (r : eco) : eco :=
  Eco (e_locations r) (e_locationNames r) (e_links r) (e_dicts r) (e_agents r) (e_closures r) (e_time r) (e_spawn_weights r) (e_num_arrivals r) (e_travel_durations r) (f (e_agents_out r)) (e_links_out r) (e_par r) (e_rank r) (e_mpi_size r) (e_total_agents r).
Definition up_e_links_out (f : (list link_row) -> (list link_row)) (r : eco) : eco :=
  Eco (e_locations r) (e_locationNames r) (e_links r) (e_dicts r) (e_agents r) (e_closures r) (e_time r) (e_spawn_weights r) (e_num_arrivals r) (e_travel_durations r) (e_agents_out r) (f (e_links_out r)) (e_par r) (e_rank r) (e_mpi_size r) (e_total_agents r).
Definition up_e_par (f : bool -> bool) (r : eco) : eco :=
  Eco (e_locations r) (e_locationNames r) (e_links r) (e_dicts r) (e_agents r) (e_closures r) (e_time r) (e_spawn_weights r) (e_num_arrivals r) (e_travel_durations r) (e_agents_out r) (e_links_out r) (f (e_par r)) (e_rank r) (e_mpi_size r) (e_total_agents r).
Definition up_e_rank (f : Z -> Z) (r : eco) : eco :=
  Eco (e_locations r) (e_locationNames r) (e_links r) (e_dicts r) (e_agents r) (e_closures r) (e_time r) (e_spawn_weights r) (e_num_arrivals r) (e_travel_durations r) (e_agents_out r) (e_links_out r) (e_par r) (f (e_rank r)) (e_mpi_size r) (e_total_agents r).
Definition up_e_mpi_size (f : Z -> Z) (r : eco) : eco :=
  Eco (e_locations r) (e_locationNames r) (e_links r) (e_dicts r) (e_agents r) (e_closures r) (e_time r) (e_spawn_weights r) (e_num_arrivals r) (e_travel_durations r) (e_agents_out r) (e_links_out r) (e_par r) (e_rank r) (f (e_mpi_size r)) (e_total_agents r).
Definition up_e_total_agents (f : Z -> Z) (r : eco) : eco :=
  Eco (e_locations r) (e_locationNames r) (e_links r) (e_dicts r) (e_agents r) (e_closures r) (e_time r) (e_spawn_weights r) (e_num_arrivals r) (e_travel_durations r) (e_agents_out r) (e_links_out r) (e_par r) (e_rank r) (e_mpi_size r) (f (e_total_agents r)).
