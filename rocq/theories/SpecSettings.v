(** * SpecSettings: vocabulary of the statements about settings files (C44) *)

From Coq Require Import Qround.
From Verif Require Import Base State Settings.
Local Open Scope string_scope.
Local Open Scope Q_scope.
Local Open Scope list_scope.

(** The file gives the value [w] under the path [p] of nested keys. *)
Inductive gives : yml -> list string -> yml -> Prop :=
| gives_here v : gives v [] v
| gives_under d k v p w : dict_get k d = Some v -> gives v p w -> gives (YMap d) (k :: p) w.

Definition missing (f : yml) (p : list string) : Prop := forall v, ~ gives f p v.

(** The file has a section (a value other than null) under the path [p]. *)
Definition has_section (f : yml) (p : list string) : Prop := exists v, gives f p v /\ v <> YNull.

(** [z] is [q] without its fractional part. *)
Definition truncates (q : Q) (z : Z) : Prop :=
  (0 <= q -> inject_Z z <= q < inject_Z z + 1) /\ (q <= 0 -> inject_Z z - 1 < q <= inject_Z z).

(** What Python's conversions make of a value of the file *)
Inductive reads_as : kind -> yml -> yml -> Prop :=
| int_int z : reads_as KInt (YInt z) (YInt z)
| int_float q z : truncates q z -> reads_as KInt (YFloat q) (YInt z)
| int_true : reads_as KInt (YBool true) (YInt 1)
| int_false : reads_as KInt (YBool false) (YInt 0)
| int_text s z : parse_Z s = Some z -> reads_as KInt (YStr s) (YInt z)
| float_int z : reads_as KFloat (YInt z) (YFloat (inject_Z z))
| float_float q : reads_as KFloat (YFloat q) (YFloat q)
| float_true : reads_as KFloat (YBool true) (YFloat 1)
| float_false : reads_as KFloat (YBool false) (YFloat 0)
| float_text s q : parse_Q s = Some q -> reads_as KFloat (YStr s) (YFloat q)
| bool_false v : In v [YNull; YBool false; YInt 0; YStr ""; YList []; YMap []] -> reads_as KBool v (YBool false)
| bool_zero q : q == 0 -> reads_as KBool (YFloat q) (YBool false)
| bool_true v : ~ In v [YNull; YBool false; YInt 0; YStr ""; YList []; YMap []] ->
    (forall q, v = YFloat q -> ~ q == 0) -> reads_as KBool v (YBool true)
| raw_any v : reads_as KRaw v v.

(** One documented setting: where it is kept, its place in the file, its type and its
    default.  Sources: docs/Simulation_settings_basic.md, docs/Simulation_settings_advanced.md and
    the comments in flee/SimulationSettings.py. *)
Record setting : Type := Setting { st_key : string; st_path : list string; st_kind : kind; st_default : yml }.

Definition documented : list setting := [
  Setting "ConflictInputFile" ["conflict_input_file"] KRaw (YStr "");
  Setting "FloodLevelInputFile" ["flood_level_input_file"] KRaw (YStr "");
  Setting "log_levels.agent" ["log_levels"; "agent"] KInt (YInt 0);
  Setting "log_levels.link" ["log_levels"; "link"] KInt (YInt 0);
  Setting "log_levels.camp" ["log_levels"; "camp"] KInt (YInt 0);
  Setting "log_levels.conflict" ["log_levels"; "conflict"] KInt (YInt 0);
  Setting "log_levels.init" ["log_levels"; "init"] KInt (YInt 0);
  Setting "log_levels.idp_totals" ["log_levels"; "idp_totals"] KInt (YInt 0);
  Setting "log_levels.granularity" ["log_levels"; "granularity"] KRaw (YStr "location");
  Setting "spawn_rules.TakeFromPopulation" ["spawn_rules"; "take_from_population"] KBool (YBool false);
  Setting "spawn_rules.InsertDayZeroRefugeesInCamps" ["spawn_rules"; "insert_day0"] KBool (YBool true);
  Setting "spawn_rules.EmptyCampsOnDay0" ["spawn_rules"; "empty_camps_on_day0"] KBool (YBool false);
  Setting "spawn_rules.conflict_zone_spawning_only" ["spawn_rules"; "conflict_zone_spawning_only"] KBool (YBool true);
  Setting "spawn_rules.flood_zone_spawning_only" ["spawn_rules"; "flood_zone_spawning_only"] KBool (YBool false);
  Setting "spawn_rules.read_from_agents_csv_file" ["spawn_rules"; "read_from_agents_csv_file"] KBool (YBool false);
  Setting "spawn_rules.sum_from_camps" ["spawn_rules"; "sum_from_camps"] KBool (YBool true);
  Setting "spawn_rules.conflict_spawn_decay" ["spawn_rules"; "conflict_spawn_decay"] KRaw YNull;
  Setting "spawn_rules.conflict_spawn_decay_interval" ["spawn_rules"; "conflict_spawn_decay_interval"] KInt (YInt 30);
  Setting "move_rules.MaxMoveSpeed" ["move_rules"; "max_move_speed"] KFloat (YFloat 360);
  Setting "move_rules.MaxWalkSpeed" ["move_rules"; "max_walk_speed"] KFloat (YFloat 35);
  Setting "move_rules.MaxCrossingSpeed" ["move_rules"; "max_crossing_speed"] KFloat (YFloat 20);
  Setting "move_rules.ForeignWeight" ["move_rules"; "foreign_weight"] KFloat (YFloat 1);
  Setting "move_rules.CampWeight" ["move_rules"; "camp_weight"] KFloat (YFloat 1);
  Setting "move_rules.ConflictWeight" ["move_rules"; "conflict_weight"] KFloat (YFloat (100000000000 # 316227766017));
  Setting "move_rules.ConflictMoveChance" ["move_rules"; "conflict_movechance"] KFloat (YFloat 1);
  Setting "move_rules.CampMoveChance" ["move_rules"; "camp_movechance"] KFloat (YFloat (1 # 1000));
  Setting "move_rules.IDPCampMoveChance" ["move_rules"; "idpcamp_movechance"] KFloat (YFloat (1 # 10));
  Setting "move_rules.DefaultMoveChance" ["move_rules"; "default_movechance"] KFloat (YFloat (3 # 10));
  Setting "move_rules.AwarenessLevel" ["move_rules"; "awareness_level"] KInt (YInt 1);
  Setting "move_rules.CapacityBuffer" ["move_rules"; "capacity_buffer"] KFloat (YFloat (9 # 10));
  Setting "move_rules.CapacityScaling" ["move_rules"; "capacity_scaling"] KFloat (YFloat 1);
  Setting "move_rules.AvoidShortStints" ["move_rules"; "avoid_short_stints"] KBool (YBool false);
  Setting "move_rules.StartOnFoot" ["move_rules"; "start_on_foot"] KBool (YBool false);
  Setting "UseV1Rules" ["move_rules"; "use_v1_rules"] KBool (YBool false);
  Setting "move_rules.DistanceSoftening" ["move_rules"; "softening"] KFloat (YFloat 10);
  Setting "move_rules.WeightSoftening" ["move_rules"; "weight_softening"] KFloat (YFloat 0);
  Setting "move_rules.WeightPower" ["move_rules"; "weight_power"] KFloat (YFloat 1);
  Setting "move_rules.DistancePower" ["move_rules"; "distance_power"] KFloat (YFloat 1);
  Setting "move_rules.StayCloseToHome" ["move_rules"; "stay_close_to_home"] KBool (YBool false);
  Setting "move_rules.HomeDistancePower" ["move_rules"; "home_distance_power"] KFloat (YFloat (1 # 2));
  Setting "move_rules.UsePopForLocWeight" ["move_rules"; "use_pop_for_loc_weight"] KBool (YBool false);
  Setting "move_rules.PopPowerForLocWeight" ["move_rules"; "pop_power_for_loc_weight"] KFloat (YFloat (1 # 10));
  Setting "move_rules.MovechancePopBase" ["move_rules"; "movechance_pop_base"] KFloat (YFloat 10000);
  Setting "move_rules.MovechancePopScaleFactor" ["move_rules"; "movechance_pop_scale_factor"] KFloat (YFloat 0);
  Setting "move_rules.PruningThreshold" ["move_rules"; "pruning_threshold"] KFloat (YFloat 1);
  Setting "move_rules.ChildrenAvoidHazards" ["move_rules"; "ChildrenAvoidHazards"] KBool (YBool false);
  Setting "move_rules.BoysTakeRisk" ["move_rules"; "BoysTakeRisk"] KBool (YBool false);
  Setting "move_rules.MatchCampEthnicity" ["move_rules"; "MatchCampEthnicity"] KBool (YBool false);
  Setting "move_rules.MatchTownEthnicity" ["move_rules"; "MatchTownEthnicity"] KBool (YBool false);
  Setting "move_rules.MatchConflictEthnicity" ["move_rules"; "MatchConflictEthnicity"] KBool (YBool false);
  Setting "move_rules.FixedRoutes" ["move_rules"; "fixed_routes"] KBool (YBool false);
  Setting "optimisations.PopulationScaleDownFactor" ["optimisations"; "hasten"] KInt (YInt 1) ].

(** The settings of the optional section move_rules / flood_rules *)
Definition flood_documented : list setting := [
  Setting "spawn_rules.MaxFloodLevel" ["move_rules"; "flood_rules"; "max_flood_level"] KInt (YInt (-1));
  Setting "move_rules.FloodMovechances" ["move_rules"; "flood_rules"; "flood_movechances"] KRaw YNull;
  Setting "move_rules.FloodLocWeights" ["move_rules"; "flood_rules"; "flood_loc_weights"] KRaw YNull;
  Setting "move_rules.FloodLinkWeights" ["move_rules"; "flood_rules"; "flood_link_weights"] KRaw YNull;
  Setting "move_rules.FloodForecaster" ["move_rules"; "flood_rules"; "flood_forecaster"] KBool (YBool false);
  Setting "move_rules.FloodForecasterTimescale" ["move_rules"; "flood_rules"; "flood_forecaster_timescale"] KInt (YInt 0);
  Setting "move_rules.FloodForecasterEndTime" ["move_rules"; "flood_rules"; "flood_forecaster_end_time"] KInt (YInt 0);
  Setting "move_rules.FloodForecasterWeights" ["move_rules"; "flood_rules"; "flood_forecaster_weights"] KRaw YNull;
  Setting "move_rules.FloodAwarenessWeights" ["move_rules"; "flood_rules"; "flood_awareness_weights"] KRaw YNull ].

(** The value of a setting for the file [f]: the one the file gives, else the default,
    converted to the type of the setting. *)
Definition configured (f : yml) (x : setting) (w : yml) : Prop :=
  exists v, (gives f (st_path x) v \/ (missing f (st_path x) /\ v = st_default x)) /\
            reads_as (st_kind x) v w.

(** The settings that the version 1 rules replace *)
Definition v1_values : list (string * yml) := [
  ("move_rules.MaxMoveSpeed", YInt 200); ("move_rules.StartOnFoot", YBool false);
  ("move_rules.AvoidShortStints", YBool false); ("move_rules.CampWeight", YFloat 2);
  ("move_rules.ConflictWeight", YFloat (1 # 4)) ].

(** A switch of the section spawn_rules is on or off in the file. *)
Definition switched (f : yml) (name : string) (default : bool) (b : bool) : Prop :=
  configured f (Setting name ["spawn_rules"; name] KBool (YBool default)) (YBool b).

(** Settings that a file only sets in its optional sections, and the section *)
Definition optional : list (string * (yml -> Prop)) :=
  map (fun x => (st_key x, fun f => has_section f ["move_rules"; "flood_rules"]))
      (filter (fun x => negb (String.eqb (st_key x) "move_rules.FloodForecaster")) flood_documented) ++
  [ ("spawn_rules.conflict_spawn_mode",
      fun f => has_section f ["spawn_rules"; "conflict_driven_spawning"] /\ switched f "flood_zone_spawning_only" false false);
    ("spawn_rules.displaced_per_conflict_day",
      fun f => has_section f ["spawn_rules"; "conflict_driven_spawning"] /\ switched f "flood_zone_spawning_only" false false);
    ("spawn_rules.flood_spawn_mode",
      fun f => has_section f ["spawn_rules"; "flood_driven_spawning"] /\ switched f "flood_zone_spawning_only" false true);
    ("spawn_rules.displaced_per_flood_day",
      fun f => has_section f ["spawn_rules"; "flood_driven_spawning"] /\ switched f "flood_zone_spawning_only" false true) ].

(** A file whose sections are mappings (or absent) and whose documented values can be
    converted *)
Definition mapping_or_null (f : yml) (p : list string) : Prop :=
  forall v, gives f p v -> v = YNull \/ exists d, v = YMap d.
Definition convertible (f : yml) (x : setting) : Prop :=
  forall v, gives f (st_path x) v -> exists w, reads_as (st_kind x) v w.

Definition well_formed (f : yml) : Prop :=
  (forall p, In p [[]; ["log_levels"]; ["spawn_rules"]; ["move_rules"]; ["optimisations"];
                   ["spawn_rules"; "conflict_driven_spawning"]; ["spawn_rules"; "flood_driven_spawning"];
                   ["move_rules"; "flood_rules"]] -> mapping_or_null f p) /\
  (forall x, In x (documented ++ flood_documented) -> convertible f x) /\
  convertible f (Setting "" ["number_of_steps"] KFloat (YInt (-1))) /\
  (forall k, In k [KInt; KFloat] ->
     convertible f (Setting "" ["spawn_rules"; "conflict_driven_spawning"; "displaced_per_conflict_day"] k (YInt 500))).

(** Two combinations of switches that ReadFromYML refuses *)
Definition excluded (f : yml) : Prop :=
  (switched f "conflict_zone_spawning_only" true true /\ switched f "flood_zone_spawning_only" false true) \/
  (switched f "flood_zone_spawning_only" false true /\ has_section f ["spawn_rules"; "flood_driven_spawning"] /\
   switched f "take_from_population" false false).

(** The switches that follow from the presence of a section *)
Definition conflict_driven (f : yml) : Prop :=
  switched f "flood_zone_spawning_only" false false /\ has_section f ["spawn_rules"; "conflict_driven_spawning"].
Definition flood_driven (f : yml) : Prop :=
  switched f "flood_zone_spawning_only" false true /\ has_section f ["spawn_rules"; "flood_driven_spawning"].

(** The settings that every call sets *)
Definition always : list string :=
  map st_key documented ++
  ["spawn_rules.camps_are_sinks"; "spawn_rules.conflict_driven_spawning"; "spawn_rules.flood_driven_spawning";
   "move_rules.FloodRulesEnabled"; "move_rules.FloodForecaster"].

(** ** The settings record the model works with

    The value each field of the record stands for *)
Definition fields (S : settings) : list (string * yml) := [
  ("move_rules.MaxMoveSpeed", YFloat (s_MaxMoveSpeed S));
  ("move_rules.MaxWalkSpeed", YFloat (s_MaxWalkSpeed S));
  ("move_rules.ForeignWeight", YFloat (s_ForeignWeight S));
  ("move_rules.CampWeight", YFloat (s_CampWeight S));
  ("move_rules.ConflictWeight", YFloat (s_ConflictWeight S));
  ("move_rules.ConflictMoveChance", YFloat (s_ConflictMoveChance S));
  ("move_rules.CampMoveChance", YFloat (s_CampMoveChance S));
  ("move_rules.IDPCampMoveChance", YFloat (s_IDPCampMoveChance S));
  ("move_rules.DefaultMoveChance", YFloat (s_DefaultMoveChance S));
  ("move_rules.AwarenessLevel", YInt (s_AwarenessLevel S));
  ("move_rules.CapacityBuffer", YFloat (s_CapacityBuffer S));
  ("move_rules.CapacityScaling", YFloat (s_CapacityScaling S));
  ("move_rules.AvoidShortStints", YBool (s_AvoidShortStints S));
  ("move_rules.StartOnFoot", YBool (s_StartOnFoot S));
  ("move_rules.DistanceSoftening", YFloat (s_DistanceSoftening S));
  ("move_rules.WeightSoftening", YFloat (s_WeightSoftening S));
  ("move_rules.WeightPower", YFloat (s_WeightPower S));
  ("move_rules.DistancePower", YFloat (s_DistancePower S));
  ("move_rules.StayCloseToHome", YBool (s_StayCloseToHome S));
  ("move_rules.HomeDistancePower", YFloat (s_HomeDistancePower S));
  ("move_rules.UsePopForLocWeight", YBool (s_UsePopForLocWeight S));
  ("move_rules.PopPowerForLocWeight", YFloat (s_PopPowerForLocWeight S));
  ("move_rules.MovechancePopBase", YFloat (s_MovechancePopBase S));
  ("move_rules.MovechancePopScaleFactor", YFloat (s_MovechancePopScaleFactor S));
  ("move_rules.PruningThreshold", YFloat (s_PruningThreshold S));
  ("move_rules.ChildrenAvoidHazards", YBool (s_ChildrenAvoidHazards S));
  ("move_rules.BoysTakeRisk", YBool (s_BoysTakeRisk S));
  ("move_rules.MatchCampEthnicity", YBool (s_MatchCampEthnicity S));
  ("move_rules.MatchTownEthnicity", YBool (s_MatchTownEthnicity S));
  ("move_rules.MatchConflictEthnicity", YBool (s_MatchConflictEthnicity S));
  ("move_rules.FixedRoutes", YBool (s_FixedRoutes S));
  ("move_rules.FloodRulesEnabled", YBool (s_FloodRulesEnabled S));
  ("move_rules.FloodForecaster", YBool (s_FloodForecaster S));
  ("spawn_rules.TakeFromPopulation", YBool (s_TakeFromPopulation S));
  ("spawn_rules.InsertDayZeroRefugeesInCamps", YBool (s_InsertDayZero S));
  ("spawn_rules.EmptyCampsOnDay0", YBool (s_EmptyCampsOnDay0 S));
  ("spawn_rules.conflict_zone_spawning_only", YBool (s_conflict_zone_spawning_only S));
  ("spawn_rules.camps_are_sinks", YBool (s_camps_are_sinks S));
  ("spawn_rules.sum_from_camps", YBool (s_sum_from_camps S));
  ("spawn_rules.conflict_driven_spawning", YBool (s_conflict_driven_spawning S));
  ("spawn_rules.flood_driven_spawning", YBool (s_flood_driven_spawning S));
  ("spawn_rules.conflict_spawn_decay_interval", YInt (s_conflict_spawn_decay_interval S));
  ("log_levels.agent", YInt (s_log_agent S));
  ("log_levels.link", YInt (s_log_link S));
  ("log_levels.camp", YInt (s_log_camp S));
  ("log_levels.granularity", YStr (s_granularity S)) ].

(** Fields that a file only sets in its optional sections *)
Definition numbers (l : list Q) (v : yml) : Prop := exists ys, v = YList ys /\
  Forall2 (fun q y => y = YFloat q \/ exists z, y = YInt z /\ q = inject_Z z) l ys.
Definition whole (z : Z) (v : yml) : Prop := v = YInt z.
Definition text (s : string) (v : yml) : Prop := v = YStr s.
Definition number (q : Q) (v : yml) : Prop := v = YFloat q \/ exists z, v = YInt z /\ q = inject_Z z.

(** The field holds what stands under the key, or nothing if there is no such value. *)
Definition holds {A} (is_value : A -> yml -> Prop) (st : store) (k : string) (x : option A) : Prop :=
  forall a, x = Some a <-> exists v, dict_get k st = Some v /\ is_value a v.
(** The same for a field that is [d] if there is no such value *)
Definition holds_or {A} (is_value : A -> yml -> Prop) (st : store) (k : string) (d x : A) : Prop :=
  (exists v, dict_get k st = Some v /\ is_value x v) \/
  (x = d /\ forall v a, dict_get k st = Some v -> ~ is_value a v).

(** The same value, up to whole numbers written as such *)
Definition same_value (w v : yml) : Prop := w = v \/ exists z, w = YInt z /\ v = YFloat (inject_Z z).
