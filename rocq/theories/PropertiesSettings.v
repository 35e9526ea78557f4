(** * PropertiesSettings: C44, reading the settings file

    Vocabulary: SpecSettings.v.  The model of ReadFromYML is in Settings.v. *)

From Verif Require Import Base State Scoring Settings SpecSettings Defaults SettingsProofs SettingsFacts SettingsMain
  SettingsMore SettingsRecord SettingsWitness.
Local Open Scope string_scope.
Local Open Scope list_scope.

(** C44. After a call that returns, every documented setting has the value the file
    gives, else its documented default, converted to its type - whatever was set before;
    the version 1 rules, if the file asks for them, replace five of them. *)
Theorem C44_values : forall f st n st' x,
  ReadFromYML f st = Ok (n, st') -> In x documented ->
  (dict_get "UseV1Rules" st' = Some (YBool true) -> ~ In (st_key x) (map fst v1_values)) ->
  exists w, dict_get (st_key x) st' = Some w /\ configured f x w.
Proof. exact read_values. Qed.
Print Assumptions C44_values.

Theorem C44_steps : forall f st n st',
  ReadFromYML f st = Ok (n, st') -> configured f (Setting "" ["number_of_steps"] KFloat (YInt (-1))) (YFloat n).
Proof. exact read_steps. Qed.
Print Assumptions C44_steps.

Theorem C44_v1 : forall f st n st',
  ReadFromYML f st = Ok (n, st') -> dict_get "UseV1Rules" st' = Some (YBool true) ->
  forall k v, In (k, v) v1_values -> dict_get k st' = Some v.
Proof. exact read_v1. Qed.
Print Assumptions C44_v1.

(** The optional sections: if present they are switched on and their settings hold. *)
Theorem C44_flood_rules : forall f st n st',
  ReadFromYML f st = Ok (n, st') -> has_section f ["move_rules"; "flood_rules"] ->
  dict_get "move_rules.FloodRulesEnabled" st' = Some (YBool true) /\
  forall x, In x flood_documented -> exists w, dict_get (st_key x) st' = Some w /\ configured f x w.
Proof. exact read_flood_rules. Qed.
Print Assumptions C44_flood_rules.

Theorem C44_conflict_driven : forall f st n st',
  ReadFromYML f st = Ok (n, st') ->
  switched f "flood_zone_spawning_only" false false -> has_section f ["spawn_rules"; "conflict_driven_spawning"] ->
  dict_get "spawn_rules.conflict_driven_spawning" st' = Some (YBool true) /\
  exists mode w, dict_get "spawn_rules.conflict_spawn_mode" st' = Some mode /\
    configured f (Setting "" ["spawn_rules"; "conflict_driven_spawning"; "spawn_mode"] KRaw (YStr "constant")) mode /\
    dict_get "spawn_rules.displaced_per_conflict_day" st' = Some w /\
    (mode = YStr "pop_ratio" ->
      configured f (Setting "" ["spawn_rules"; "conflict_driven_spawning"; "displaced_per_conflict_day"] KFloat (YFloat (1 # 100))) w) /\
    (mode <> YStr "pop_ratio" ->
      configured f (Setting "" ["spawn_rules"; "conflict_driven_spawning"; "displaced_per_conflict_day"] KInt (YInt 500)) w).
Proof. exact read_conflict_driven. Qed.
Print Assumptions C44_conflict_driven.

Theorem C44_flood_driven : forall f st n st',
  ReadFromYML f st = Ok (n, st') ->
  switched f "flood_zone_spawning_only" false true -> has_section f ["spawn_rules"; "flood_driven_spawning"] ->
  dict_get "spawn_rules.flood_driven_spawning" st' = Some (YBool true) /\
  dict_get "move_rules.FloodRulesEnabled" st' = Some (YBool true) /\
  exists mode w, dict_get "spawn_rules.flood_spawn_mode" st' = Some mode /\
    configured f (Setting "" ["spawn_rules"; "flood_driven_spawning"; "spawn_mode"] KRaw (YStr "pop_ratio")) mode /\
    dict_get "spawn_rules.displaced_per_flood_day" st' = Some w /\
    (mode = YStr "pop_ratio" ->
      configured f (Setting "" ["spawn_rules"; "flood_driven_spawning"; "displaced_per_flood_day"] KRaw
        (YList [YFloat 0; YFloat (1 # 10); YFloat (2 # 10); YFloat (5 # 10); YFloat (9 # 10)])) w) /\
    (mode <> YStr "pop_ratio" ->
      configured f (Setting "" ["spawn_rules"; "flood_driven_spawning"; "displaced_per_flood_day"] KRaw
        (YList [YInt 0; YInt 100; YInt 200; YInt 300; YInt 500])) w).
Proof. exact read_flood_driven. Qed.
Print Assumptions C44_flood_driven.

(** The switches that only follow from a section are on exactly if the section is there,
    whatever was read before. *)
Theorem C44_switches : forall f st n st',
  ReadFromYML f st = Ok (n, st') ->
  (exists b, dict_get "spawn_rules.conflict_driven_spawning" st' = Some (YBool b) /\ (b = true <-> conflict_driven f)) /\
  (exists b, dict_get "spawn_rules.flood_driven_spawning" st' = Some (YBool b) /\ (b = true <-> flood_driven f)) /\
  (exists b, dict_get "move_rules.FloodRulesEnabled" st' = Some (YBool b) /\
     (b = true <-> flood_driven f \/ has_section f ["move_rules"; "flood_rules"])) /\
  (~ has_section f ["move_rules"; "flood_rules"] -> dict_get "move_rules.FloodForecaster" st' = Some (YBool false)).
Proof. exact read_switches. Qed.
Print Assumptions C44_switches.

(** Files with both exclusive spawning switches on, or with flood-driven spawning but no
    take_from_population, never configure a simulation; a well-formed file aborts the
    program exactly in these cases, and is accepted in all others. *)
Theorem C44_excluded : forall f st n st', excluded f -> ReadFromYML f st <> Ok (n, st').
Proof. exact read_refused. Qed.
Print Assumptions C44_excluded.

Theorem C44_accepted : forall f st,
  well_formed f ->
  (excluded f /\ ReadFromYML f st = Err SystemExit) \/ (~ excluded f /\ exists n st', ReadFromYML f st = Ok (n, st')).
Proof. exact read_accepted. Qed.
Print Assumptions C44_accepted.

(** Whether a file is accepted, the number of steps, and all settings other than those of
    sections missing from the file, do not depend on what was set before. *)
Theorem C44_independent : forall f st1 st2,
  (forall x, ReadFromYML f st1 = Err x -> ReadFromYML f st2 = Err x) /\
  (forall n st1', ReadFromYML f st1 = Ok (n, st1') ->
    exists st2', ReadFromYML f st2 = Ok (n, st2') /\
      (forall k, In k always \/ (exists sec, In (k, sec) optional /\ sec f) -> dict_get k st1' = dict_get k st2') /\
      (forall k, dict_get k st1 = dict_get k st2 -> dict_get k st1' = dict_get k st2')).
Proof. exact read_independent. Qed.
Print Assumptions C44_independent.

(** The settings record that all other theorems quantify over is the same after two
    histories, unless they left different values in a section missing from the file. *)
Theorem C44_same_settings : forall f st1 st2 n st1' st2',
  ReadFromYML f st1 = Ok (n, st1') -> ReadFromYML f st2 = Ok (n, st2') ->
  (forall k sec, In (k, sec) optional -> sec f \/ dict_get k st1 = dict_get k st2) ->
  settings_of st1' = settings_of st2'.
Proof. exact read_same_settings. Qed.
Print Assumptions C44_same_settings.

Theorem C44_defaults : forall f st n st',
  f = YNull \/ f = YMap [] -> (forall k sec, In (k, sec) optional -> dict_get k st = None) ->
  ReadFromYML f st = Ok (n, st') -> settings_of st' = Some default_settings.
Proof. exact read_empty. Qed.
Print Assumptions C44_defaults.

(** What the simulation uses is what the file says: every file that is accepted and whose
    granularity is a text gives a settings record, each field of which is the setting of
    its name. *)
Theorem C44_record : forall f st n st', ReadFromYML f st = Ok (n, st') ->
  ((exists S, settings_of st' = Some S) <-> exists s, dict_get "log_levels.granularity" st' = Some (YStr s)).
Proof. exact record_exists. Qed.
Print Assumptions C44_record.

Theorem C44_fields : forall st S, settings_of st = Some S ->
  forall k v, In (k, v) (fields S) -> exists w, dict_get k st = Some w /\ same_value w v.
Proof. exact record_fields. Qed.
Print Assumptions C44_fields.

Theorem C44_optional_fields : forall st S, settings_of st = Some S ->
  holds whole st "move_rules.FloodForecasterTimescale" (s_FloodForecasterTimescale S) /\
  holds whole st "move_rules.FloodForecasterEndTime" (s_FloodForecasterEndTime S) /\
  holds numbers st "move_rules.FloodMovechances" (s_FloodMovechances S) /\
  holds numbers st "move_rules.FloodLocWeights" (s_FloodLocWeights S) /\
  holds numbers st "move_rules.FloodForecasterWeights" (s_FloodForecasterWeights S) /\
  holds numbers st "move_rules.FloodAwarenessWeights" (s_FloodAwarenessWeights S) /\
  holds numbers st "spawn_rules.conflict_spawn_decay" (s_conflict_spawn_decay S) /\
  holds_or text st "spawn_rules.conflict_spawn_mode" "" (s_conflict_spawn_mode S) /\
  holds_or number st "spawn_rules.displaced_per_conflict_day" 0%Q (s_displaced_per_conflict_day S) /\
  holds_or text st "spawn_rules.flood_spawn_mode" "" (s_flood_spawn_mode S) /\
  holds_or numbers st "spawn_rules.displaced_per_flood_day" [] (s_displaced_per_flood_day S).
Proof. exact record_optional. Qed.
Print Assumptions C44_optional_fields.

Theorem C44_used : forall f st n st' S x v, ReadFromYML f st = Ok (n, st') -> settings_of st' = Some S ->
  In x documented -> In (st_key x, v) (fields S) ->
  (dict_get "UseV1Rules" st' = Some (YBool true) -> ~ In (st_key x) (map fst v1_values)) ->
  exists w, configured f x w /\ same_value w v.
Proof. exact record_used. Qed.
Print Assumptions C44_used.

(** The one switch that is read under another name than the documented one *)
Theorem C44_sinks : forall f st n st', ReadFromYML f st = Ok (n, st') ->
  exists w, dict_get "spawn_rules.camps_are_sinks" st' = Some w /\
    configured f (Setting "spawn_rules.camps_are_sinks" ["spawn_rules"; "camps_are_sicks"] KBool (YBool false)) w.
Proof. exact read_sinks. Qed.
Print Assumptions C44_sinks.

Example C44_example_record : exists n st S, ReadFromYML ex_file [] = Ok (n, st) /\ settings_of st = Some S /\
  (s_MaxMoveSpeed S, s_AwarenessLevel S, s_StartOnFoot S, s_conflict_spawn_mode S, s_FloodMovechances S) =
  (200%Q, 2%Z, true, "pop_ratio", Some [0%Q; (1 # 2)%Q]).
Proof. do 3 eexists. do 2 (split; [vm_compute; reflexivity|]). reflexivity. Qed.

(** The full claim of independence is false: the flood weights of a file read earlier
    stay in force and change the score of a flooded location. *)
Theorem C44_leftover_refuted : exists first second n1 st1 n2 alone after S_alone S_after,
  ReadFromYML first [] = Ok (n1, st1) /\ ReadFromYML second [] = Ok (n2, alone) /\ ReadFromYML second st1 = Ok (n2, after) /\
  settings_of alone = Some S_alone /\ settings_of after = Some S_after /\
  locationScore S_alone ex_oracle [("flood_level", VInt 1)] 0 flooded_town = Err KeyError /\
  locationScore S_after ex_oracle [("flood_level", VInt 1)] 0 flooded_town = Ok (1 # 2)%Q.
Proof. exact leftover. Qed.
Print Assumptions C44_leftover_refuted.

(** The documented setting camps_are_sinks is not taken from the file. *)
Theorem C44_sinks_refuted : exists f n st,
  gives f ["spawn_rules"; "camps_are_sinks"] (YBool true) /\ ReadFromYML f [] = Ok (n, st) /\
  dict_get "spawn_rules.camps_are_sinks" st = Some (YBool false).
Proof. exact sinks_ignored. Qed.
Print Assumptions C44_sinks_refuted.

(** A file with several types of values, one with version 1 rules, a well-formed file and
    two files that abort *)
Example C44_example_values : exists st, ReadFromYML ex_file [] = Ok (300%Q, st) /\
  map (fun k => dict_get k st)
    ["move_rules.MaxMoveSpeed"; "move_rules.AwarenessLevel"; "move_rules.StartOnFoot"; "move_rules.MaxWalkSpeed";
     "spawn_rules.conflict_spawn_mode"; "spawn_rules.displaced_per_conflict_day"; "move_rules.FloodMovechances";
     "move_rules.FloodRulesEnabled"] =
  [Some (YFloat 200); Some (YInt 2); Some (YBool true); Some (YFloat 35); Some (YStr "pop_ratio"); Some (YFloat (1 # 100));
   Some (YList [YFloat 0; YFloat (1 # 2)]); Some (YBool true)].
Proof. exact ex_file_read. Qed.

Example C44_example_v1 : exists st, ReadFromYML v1_file [] = Ok ((-1)%Q, st) /\ dict_get "UseV1Rules" st = Some (YBool true).
Proof. exact v1_file_read. Qed.

Example C44_example_well_formed : well_formed plain_file.
Proof. exact plain_well_formed. Qed.

Example C44_example_excluded : excluded both_file /\ ReadFromYML both_file [] = Err SystemExit /\ ReadFromYML take_file [] = Err SystemExit.
Proof. exact (conj both_excluded (conj both_aborts take_aborts)). Qed.
