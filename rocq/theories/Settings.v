(** * Settings: flee/SimulationSettings.py

    [ReadFromYML] and the dictionaries it fills.  [yaml.safe_load] itself is not
    modelled: the model starts from the value it returns.  Dates, infinities and
    not-a-number are not among the values of the model. *)

From Verif Require Import Base State.
Local Open Scope string_scope.
Local Open Scope list_scope.

(** A value returned by [yaml.safe_load].  A mapping is a Python dictionary with
    string keys: each key counts once, at its first place in the list. *)
Inductive yml : Type :=
| YNull
| YBool (b : bool)
| YInt (z : Z)
| YFloat (q : Q)
| YStr (s : string)
| YList (l : list yml)
| YMap (d : list (string * yml)).

(** [v == s] for a string [s] *)
Definition yml_is_str (s : string) (v : yml) : bool :=
  match v with YStr t => String.eqb s t | _ => false end.

(** [v is None] *)
Definition yml_is_none (v : yml) : bool := match v with YNull => true | _ => false end.

(** [v is True] *)
Definition yml_is_true (v : yml) : bool := match v with YBool true => true | _ => false end.

(** ** fetchss (flee/SimulationSettings.py 15-23)

    [name in dataset] is a key test on a mapping, a membership test on a list, a
    substring test on a string and a [TypeError] on numbers and booleans; indexing a
    list or a string by a string is a [TypeError]. *)
Definition fetchss (dataset : yml) (name : string) (default : yml) : res yml :=
  match dataset with
  | YNull => Ok default
  | YMap d => match dict_get name d with Some v => Ok v | None => Ok default end
  | YList l => if existsb (yml_is_str name) l then Err TypeError else Ok default
  | YStr s => if str_in name s then Err TypeError else Ok default
  | YBool _ | YInt _ | YFloat _ => Err TypeError
  end.

(** ** The built-in conversions [int], [float] and [bool] *)

Definition yml_int (v : yml) : res yml :=
  match v with
  | YBool b => Ok (YInt (if b then 1 else 0))
  | YInt z => Ok (YInt z)
  | YFloat q => Ok (YInt (Qtrunc q))
  | YStr s => z <- of_option ValueError (parse_Z s) ;; Ok (YInt z)
  | YNull | YList _ | YMap _ => Err TypeError
  end.

Definition yml_float (v : yml) : res yml :=
  match v with
  | YBool b => Ok (YFloat (if b then 1 else 0))
  | YInt z => Ok (YFloat (inject_Z z))
  | YFloat q => Ok (YFloat q)
  | YStr s => q <- of_option ValueError (parse_Q s) ;; Ok (YFloat q)
  | YNull | YList _ | YMap _ => Err TypeError
  end.

Definition yml_bool (v : yml) : bool :=
  match v with
  | YNull => false
  | YBool b => b
  | YInt z => negb (z =? 0)%Z
  | YFloat q => negb (Qeqb q 0)
  | YStr s => negb (String.eqb s "")
  | YList l => match l with [] => false | _ => true end
  | YMap d => match d with [] => false | _ => true end
  end.

Inductive kind : Type := KInt | KFloat | KBool | KRaw.

Definition convert (k : kind) (v : yml) : res yml :=
  match k with
  | KInt => yml_int v
  | KFloat => yml_float v
  | KBool => Ok (YBool (yml_bool v))
  | KRaw => Ok v
  end.

(** ** The class-level dictionaries (flee/SimulationSettings.py 31-34)

    One store for the dictionaries log_levels, spawn_rules, move_rules and
    optimisations and for the class attributes; an entry of a dictionary is filed
    under the name of the dictionary, a full stop and its key. *)
Definition store : Type := list (string * yml).

Definition get_key (k : string) (st : store) : res yml := of_option KeyError (dict_get k st).

(** One line [dest = conv(fetchss(data, name, default))] *)
Record line : Type := Line { ln_dest : string; ln_conv : kind; ln_name : string; ln_default : yml }.

Definition assign (data : yml) (st : store) (x : line) : res store :=
  v <- fetchss data (ln_name x) (ln_default x) ;;
  w <- convert (ln_conv x) v ;;
  Ok (dict_set (ln_dest x) w st).

Definition assign_all (data : yml) (xs : list line) (st : store) : res store :=
  foldM (assign data) xs st.

(** flee/SimulationSettings.py 99-100 *)
Definition file_lines : list line :=
  [ Line "ConflictInputFile" KRaw "conflict_input_file" (YStr "");
    Line "FloodLevelInputFile" KRaw "flood_level_input_file" (YStr "") ].

(** flee/SimulationSettings.py 106-121 *)
Definition log_lines : list line :=
  [ Line "log_levels.agent" KInt "agent" (YInt 0);
    Line "log_levels.link" KInt "link" (YInt 0);
    Line "log_levels.camp" KInt "camp" (YInt 0);
    Line "log_levels.init" KInt "init" (YInt 0);
    Line "log_levels.conflict" KInt "conflict" (YInt 0);
    Line "log_levels.idp_totals" KInt "idp_totals" (YInt 0);
    Line "log_levels.granularity" KRaw "granularity" (YStr "location") ].

(** flee/SimulationSettings.py 131-138 *)
Definition spawn_lines1 : list line :=
  [ Line "spawn_rules.TakeFromPopulation" KBool "take_from_population" (YBool false);
    Line "spawn_rules.InsertDayZeroRefugeesInCamps" KBool "insert_day0" (YBool true);
    Line "spawn_rules.EmptyCampsOnDay0" KBool "empty_camps_on_day0" (YBool false);
    Line "spawn_rules.conflict_zone_spawning_only" KBool "conflict_zone_spawning_only" (YBool true);
    Line "spawn_rules.flood_zone_spawning_only" KBool "flood_zone_spawning_only" (YBool false) ].

(** flee/SimulationSettings.py 146-149; the name in line 146 is spelt as in the code *)
Definition spawn_lines2 : list line :=
  [ Line "spawn_rules.camps_are_sinks" KBool "camps_are_sicks" (YBool false);
    Line "spawn_rules.read_from_agents_csv_file" KBool "read_from_agents_csv_file" (YBool false);
    Line "spawn_rules.sum_from_camps" KBool "sum_from_camps" (YBool true) ].

(** flee/SimulationSettings.py 205-207 *)
Definition spawn_lines3 : list line :=
  [ Line "spawn_rules.conflict_spawn_decay" KRaw "conflict_spawn_decay" YNull;
    Line "spawn_rules.conflict_spawn_decay_interval" KInt "conflict_spawn_decay_interval" (YInt 30) ].

(** flee/SimulationSettings.py 215-294; [1.0 / sqrt_ten] of line 228 is exact here *)
Definition move_lines : list line :=
  [ Line "move_rules.MaxMoveSpeed" KFloat "max_move_speed" (YFloat 360);
    Line "move_rules.MaxWalkSpeed" KFloat "max_walk_speed" (YFloat 35);
    Line "move_rules.MaxCrossingSpeed" KFloat "max_crossing_speed" (YFloat 20);
    Line "move_rules.ForeignWeight" KFloat "foreign_weight" (YFloat 1);
    Line "move_rules.CampWeight" KFloat "camp_weight" (YFloat 1);
    Line "move_rules.ConflictWeight" KFloat "conflict_weight" (YFloat (100000000000 # 316227766017));
    Line "move_rules.ConflictMoveChance" KFloat "conflict_movechance" (YFloat 1);
    Line "move_rules.CampMoveChance" KFloat "camp_movechance" (YFloat (1 # 1000));
    Line "move_rules.IDPCampMoveChance" KFloat "idpcamp_movechance" (YFloat (1 # 10));
    Line "move_rules.DefaultMoveChance" KFloat "default_movechance" (YFloat (3 # 10));
    Line "move_rules.AwarenessLevel" KInt "awareness_level" (YInt 1);
    Line "move_rules.CapacityBuffer" KFloat "capacity_buffer" (YFloat (9 # 10));
    Line "move_rules.CapacityScaling" KFloat "capacity_scaling" (YFloat 1);
    Line "move_rules.AvoidShortStints" KBool "avoid_short_stints" (YBool false);
    Line "move_rules.StartOnFoot" KBool "start_on_foot" (YBool false);
    Line "UseV1Rules" KBool "use_v1_rules" (YBool false);
    Line "move_rules.DistanceSoftening" KFloat "softening" (YFloat 10);
    Line "move_rules.WeightSoftening" KFloat "weight_softening" (YFloat 0);
    Line "move_rules.WeightPower" KFloat "weight_power" (YFloat 1);
    Line "move_rules.DistancePower" KFloat "distance_power" (YFloat 1);
    Line "move_rules.StayCloseToHome" KBool "stay_close_to_home" (YBool false);
    Line "move_rules.HomeDistancePower" KFloat "home_distance_power" (YFloat (1 # 2));
    Line "move_rules.UsePopForLocWeight" KBool "use_pop_for_loc_weight" (YBool false);
    Line "move_rules.PopPowerForLocWeight" KFloat "pop_power_for_loc_weight" (YFloat (1 # 10));
    Line "move_rules.MovechancePopBase" KFloat "movechance_pop_base" (YFloat 10000);
    Line "move_rules.MovechancePopScaleFactor" KFloat "movechance_pop_scale_factor" (YFloat 0);
    Line "move_rules.PruningThreshold" KFloat "pruning_threshold" (YFloat 1);
    Line "move_rules.ChildrenAvoidHazards" KBool "ChildrenAvoidHazards" (YBool false);
    Line "move_rules.BoysTakeRisk" KBool "BoysTakeRisk" (YBool false);
    Line "move_rules.MatchCampEthnicity" KBool "MatchCampEthnicity" (YBool false);
    Line "move_rules.MatchTownEthnicity" KBool "MatchTownEthnicity" (YBool false);
    Line "move_rules.MatchConflictEthnicity" KBool "MatchConflictEthnicity" (YBool false);
    Line "move_rules.FixedRoutes" KBool "fixed_routes" (YBool false) ].

(** flee/SimulationSettings.py 302-334 *)
Definition flood_lines : list line :=
  [ Line "spawn_rules.MaxFloodLevel" KInt "max_flood_level" (YInt (-1));
    Line "move_rules.FloodMovechances" KRaw "flood_movechances" YNull;
    Line "move_rules.FloodLocWeights" KRaw "flood_loc_weights" YNull;
    Line "move_rules.FloodLinkWeights" KRaw "flood_link_weights" YNull;
    Line "move_rules.FloodForecaster" KBool "flood_forecaster" (YBool false);
    Line "move_rules.FloodForecasterTimescale" KInt "flood_forecaster_timescale" (YInt 0);
    Line "move_rules.FloodForecasterWeights" KRaw "flood_forecaster_weights" YNull;
    Line "move_rules.FloodForecasterEndTime" KInt "flood_forecaster_end_time" (YInt 0);
    Line "move_rules.FloodAwarenessWeights" KRaw "flood_awareness_weights" YNull ].

(** flee/SimulationSettings.py 342 *)
Definition optimisation_lines : list line :=
  [ Line "optimisations.PopulationScaleDownFactor" KInt "hasten" (YInt 1) ].

(** flee/SimulationSettings.py 160-170 *)
Definition conflict_section (dps : yml) (flood : bool) (st : store) : res store :=
  if flood then Ok st else
  dpsc <- fetchss dps "conflict_driven_spawning" YNull ;;
  if yml_is_none dpsc then Ok st else
  let st1 := dict_set "spawn_rules.conflict_driven_spawning" (YBool true) st in
  st2 <- assign dpsc st1 (Line "spawn_rules.conflict_spawn_mode" KRaw "spawn_mode" (YStr "constant")) ;;
  mode <- get_key "spawn_rules.conflict_spawn_mode" st2 ;;
  if yml_is_str "pop_ratio" mode then
    assign dpsc st2 (Line "spawn_rules.displaced_per_conflict_day" KFloat
                          "displaced_per_conflict_day" (YFloat (1 # 100)))
  else
    assign dpsc st2 (Line "spawn_rules.displaced_per_conflict_day" KInt
                          "displaced_per_conflict_day" (YInt 500)).

(** flee/SimulationSettings.py 181-202 *)
Definition flood_section (dps : yml) (flood : bool) (st : store) : res store :=
  if flood then
    dpsc <- fetchss dps "flood_driven_spawning" YNull ;;
    if yml_is_none dpsc then Ok st else
    let st1 := dict_set "move_rules.FloodRulesEnabled" (YBool true) st in
    take <- get_key "spawn_rules.TakeFromPopulation" st1 ;;
    if negb (yml_is_true take) then Err SystemExit else
    let st2 := dict_set "spawn_rules.flood_driven_spawning" (YBool true) st1 in
    st3 <- assign dpsc st2 (Line "spawn_rules.flood_spawn_mode" KRaw "spawn_mode" (YStr "pop_ratio")) ;;
    mode <- get_key "spawn_rules.flood_spawn_mode" st3 ;;
    st4 <- (if yml_is_str "pop_ratio" mode then
              assign dpsc st3 (Line "spawn_rules.displaced_per_flood_day" KRaw "displaced_per_flood_day"
                (YList [YFloat 0; YFloat (1 # 10); YFloat (2 # 10); YFloat (5 # 10); YFloat (9 # 10)]))
            else
              assign dpsc st3 (Line "spawn_rules.displaced_per_flood_day" KRaw "displaced_per_flood_day"
                (YList [YInt 0; YInt 100; YInt 200; YInt 300; YInt 500]))) ;;
    forecaster <- get_key "move_rules.FloodForecaster" st4 ;;
    if yml_is_true forecaster then
      assign dpsc st4 (Line "move_rules.FloodForecasterTimescale" KRaw
                            "flood_forecaster_timescale" (YInt 0))
    else Ok st4
  else Ok st.

(** flee/SimulationSettings.py 298-335 *)
Definition flood_rules_section (dpr : yml) (st : store) : res store :=
  dpf <- fetchss dpr "flood_rules" YNull ;;
  if yml_is_none dpf then Ok st else
  assign_all dpf flood_lines (dict_set "move_rules.FloodRulesEnabled" (YBool true) st).

(** flee/SimulationSettings.py 344-352 *)
Definition v1_rules (st : store) : res store :=
  v1 <- get_key "UseV1Rules" st ;;
  if yml_is_true v1 then
    Ok (dict_set "move_rules.ConflictWeight" (YFloat (1 # 4))
       (dict_set "move_rules.CampWeight" (YFloat 2)
       (dict_set "move_rules.AvoidShortStints" (YBool false)
       (dict_set "move_rules.StartOnFoot" (YBool false)
       (dict_set "move_rules.MaxMoveSpeed" (YInt 200) st)))))
  else Ok st.

(** ** ReadFromYML (flee/SimulationSettings.py 91-356)

    [dp] is the value loaded from the file, [st] the state of the dictionaries before
    the call.  The printed messages are dropped; the [fetchss] of line 129, whose
    result is only printed, fails exactly when the one of line 131 does. *)
Definition ReadFromYML (dp : yml) (st : store) : res (Q * store) :=
  v <- fetchss dp "number_of_steps" (YInt (-1)) ;;
  steps <- yml_float v ;;
  st1 <- assign_all dp file_lines st ;;
  dpll <- fetchss dp "log_levels" YNull ;;
  st2 <- assign_all dpll log_lines st1 ;;
  dps <- fetchss dp "spawn_rules" YNull ;;
  st3 <- assign_all dps spawn_lines1 st2 ;;
  conflict_only <- get_key "spawn_rules.conflict_zone_spawning_only" st3 ;;
  flood_only <- get_key "spawn_rules.flood_zone_spawning_only" st3 ;;
  if (yml_is_true conflict_only && yml_is_true flood_only)%bool then Err SystemExit else
  st4 <- assign_all dps spawn_lines2 st3 ;;
  let st5 := dict_set "spawn_rules.flood_driven_spawning" (YBool false)
            (dict_set "spawn_rules.conflict_driven_spawning" (YBool false) st4) in
  st6 <- conflict_section dps (yml_is_true flood_only) st5 ;;
  let st7 := dict_set "move_rules.flood_forecaster_timescale" (YInt 0)
            (dict_set "move_rules.FloodForecaster" (YBool false)
            (dict_set "spawn_rules.flood_driven_spawning" (YBool false)
            (dict_set "move_rules.FloodRulesEnabled" (YBool false) st6))) in
  st8 <- flood_section dps (yml_is_true flood_only) st7 ;;
  st9 <- assign_all dps spawn_lines3 st8 ;;
  dpr <- fetchss dp "move_rules" YNull ;;
  st10 <- assign_all dpr move_lines st9 ;;
  st11 <- flood_rules_section dpr st10 ;;
  dpo <- fetchss dp "optimisations" YNull ;;
  st12 <- assign_all dpo optimisation_lines st11 ;;
  st13 <- v1_rules st12 ;;
  Ok (match steps with YFloat q => q | _ => 0%Q end, st13).

(** ** The settings record of the model

    What the other modules read from the dictionaries.  A required key that is missing
    or has another type gives no record; a key that only some files set is [None] or a
    dummy when absent. *)
Definition as_Q (v : yml) : option Q :=
  match v with YFloat q => Some q | YInt z => Some (inject_Z z) | _ => None end.
Definition as_Z (v : yml) : option Z := match v with YInt z => Some z | _ => None end.
Definition as_bool (v : yml) : option bool := match v with YBool b => Some b | _ => None end.
Definition as_str (v : yml) : option string := match v with YStr s => Some s | _ => None end.

Fixpoint as_Qs (l : list yml) : option (list Q) :=
  match l with
  | [] => Some []
  | v :: l' => match as_Q v, as_Qs l' with Some q, Some qs => Some (q :: qs) | _, _ => None end
  end.
Definition as_list (v : yml) : option (list Q) := match v with YList l => as_Qs l | _ => None end.

Definition key {A : Type} (f : yml -> option A) (k : string) (st : store) : option A :=
  match dict_get k st with Some v => f v | None => None end.
Definition key_or {A : Type} (f : yml -> option A) (k : string) (st : store) (d : A) : A :=
  match key f k st with Some a => a | None => d end.

Definition obind {A B : Type} (o : option A) (k : A -> option B) : option B :=
  match o with Some a => k a | None => None end.
Local Notation "x <-o m ;; k" := (obind m (fun x => k)) (at level 61, m at next level, right associativity).

Definition settings_of (st : store) : option settings :=
  a1 <-o key as_Q "move_rules.MaxMoveSpeed" st ;;
  a2 <-o key as_Q "move_rules.MaxWalkSpeed" st ;;
  a3 <-o key as_Q "move_rules.ForeignWeight" st ;;
  a4 <-o key as_Q "move_rules.CampWeight" st ;;
  a5 <-o key as_Q "move_rules.ConflictWeight" st ;;
  a6 <-o key as_Q "move_rules.ConflictMoveChance" st ;;
  a7 <-o key as_Q "move_rules.CampMoveChance" st ;;
  a8 <-o key as_Q "move_rules.IDPCampMoveChance" st ;;
  a9 <-o key as_Q "move_rules.DefaultMoveChance" st ;;
  a10 <-o key as_Z "move_rules.AwarenessLevel" st ;;
  a11 <-o key as_Q "move_rules.CapacityBuffer" st ;;
  a12 <-o key as_Q "move_rules.CapacityScaling" st ;;
  a13 <-o key as_bool "move_rules.AvoidShortStints" st ;;
  a14 <-o key as_bool "move_rules.StartOnFoot" st ;;
  a15 <-o key as_Q "move_rules.DistanceSoftening" st ;;
  a16 <-o key as_Q "move_rules.WeightSoftening" st ;;
  a17 <-o key as_Q "move_rules.WeightPower" st ;;
  a18 <-o key as_Q "move_rules.DistancePower" st ;;
  a19 <-o key as_bool "move_rules.StayCloseToHome" st ;;
  a20 <-o key as_Q "move_rules.HomeDistancePower" st ;;
  a21 <-o key as_bool "move_rules.UsePopForLocWeight" st ;;
  a22 <-o key as_Q "move_rules.PopPowerForLocWeight" st ;;
  a23 <-o key as_Q "move_rules.MovechancePopBase" st ;;
  a24 <-o key as_Q "move_rules.MovechancePopScaleFactor" st ;;
  a25 <-o key as_Q "move_rules.PruningThreshold" st ;;
  a26 <-o key as_bool "move_rules.ChildrenAvoidHazards" st ;;
  a27 <-o key as_bool "move_rules.BoysTakeRisk" st ;;
  a28 <-o key as_bool "move_rules.MatchCampEthnicity" st ;;
  a29 <-o key as_bool "move_rules.MatchTownEthnicity" st ;;
  a30 <-o key as_bool "move_rules.MatchConflictEthnicity" st ;;
  a31 <-o key as_bool "move_rules.FixedRoutes" st ;;
  a32 <-o key as_bool "move_rules.FloodRulesEnabled" st ;;
  a33 <-o key as_bool "move_rules.FloodForecaster" st ;;
  a34 <-o key as_bool "spawn_rules.TakeFromPopulation" st ;;
  a35 <-o key as_bool "spawn_rules.InsertDayZeroRefugeesInCamps" st ;;
  a36 <-o key as_bool "spawn_rules.EmptyCampsOnDay0" st ;;
  a37 <-o key as_bool "spawn_rules.conflict_zone_spawning_only" st ;;
  a38 <-o key as_bool "spawn_rules.camps_are_sinks" st ;;
  a39 <-o key as_bool "spawn_rules.sum_from_camps" st ;;
  a40 <-o key as_bool "spawn_rules.conflict_driven_spawning" st ;;
  a41 <-o key as_bool "spawn_rules.flood_driven_spawning" st ;;
  a42 <-o key as_Z "spawn_rules.conflict_spawn_decay_interval" st ;;
  a43 <-o key as_Z "log_levels.agent" st ;;
  a44 <-o key as_Z "log_levels.link" st ;;
  a45 <-o key as_Z "log_levels.camp" st ;;
  a46 <-o key as_str "log_levels.granularity" st ;;
  Some {|
    s_MaxMoveSpeed := a1; s_MaxWalkSpeed := a2; s_ForeignWeight := a3; s_CampWeight := a4;
    s_ConflictWeight := a5; s_ConflictMoveChance := a6; s_CampMoveChance := a7;
    s_IDPCampMoveChance := a8; s_DefaultMoveChance := a9; s_AwarenessLevel := a10;
    s_CapacityBuffer := a11; s_CapacityScaling := a12; s_AvoidShortStints := a13;
    s_StartOnFoot := a14; s_DistanceSoftening := a15; s_WeightSoftening := a16;
    s_WeightPower := a17; s_DistancePower := a18; s_StayCloseToHome := a19;
    s_HomeDistancePower := a20; s_UsePopForLocWeight := a21; s_PopPowerForLocWeight := a22;
    s_MovechancePopBase := a23; s_MovechancePopScaleFactor := a24; s_PruningThreshold := a25;
    s_ChildrenAvoidHazards := a26; s_BoysTakeRisk := a27; s_MatchCampEthnicity := a28;
    s_MatchTownEthnicity := a29; s_MatchConflictEthnicity := a30; s_FixedRoutes := a31;
    s_FloodRulesEnabled := a32; s_FloodForecaster := a33;
    s_FloodForecasterTimescale := key as_Z "move_rules.FloodForecasterTimescale" st;
    s_FloodForecasterEndTime := key as_Z "move_rules.FloodForecasterEndTime" st;
    s_FloodMovechances := key as_list "move_rules.FloodMovechances" st;
    s_FloodLocWeights := key as_list "move_rules.FloodLocWeights" st;
    s_FloodForecasterWeights := key as_list "move_rules.FloodForecasterWeights" st;
    s_FloodAwarenessWeights := key as_list "move_rules.FloodAwarenessWeights" st;
    s_TakeFromPopulation := a34; s_InsertDayZero := a35; s_EmptyCampsOnDay0 := a36;
    s_conflict_zone_spawning_only := a37; s_camps_are_sinks := a38; s_sum_from_camps := a39;
    s_conflict_driven_spawning := a40;
    s_conflict_spawn_mode := key_or as_str "spawn_rules.conflict_spawn_mode" st ""%string;
    s_displaced_per_conflict_day := key_or as_Q "spawn_rules.displaced_per_conflict_day" st 0%Q;
    s_flood_driven_spawning := a41;
    s_flood_spawn_mode := key_or as_str "spawn_rules.flood_spawn_mode" st ""%string;
    s_displaced_per_flood_day := key_or as_list "spawn_rules.displaced_per_flood_day" st [];
    s_conflict_spawn_decay := key as_list "spawn_rules.conflict_spawn_decay" st;
    s_conflict_spawn_decay_interval := a42;
    s_log_agent := a43; s_log_link := a44; s_log_camp := a45; s_granularity := a46 |}.
