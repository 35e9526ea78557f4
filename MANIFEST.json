{
 "claims": [
  {
   "property": "C01",
   "status": "proved",
   "theorems": [
    "C01_location_head_counts"
   ],
   "note": ""
  },
  {
   "property": "C02",
   "status": "proved",
   "theorems": [
    "C02_link_head_counts"
   ],
   "note": ""
  },
  {
   "property": "C03",
   "status": "proved",
   "theorems": [
    "C03_evolve_keeps_agents",
    "C03_heads_sum_to_numAgents"
   ],
   "note": ""
  },
  {
   "property": "C04",
   "status": "proved",
   "theorems": [
    "C04_positions",
    "C04_link_ends"
   ],
   "note": ""
  },
  {
   "property": "C05",
   "status": "proved",
   "theorems": [
    "C05_only_in_sink_camps",
    "C05_new_agents_active",
    "C05_permanent",
    "C05_never_without_sinks"
   ],
   "note": ""
  },
  {
   "property": "C06",
   "status": "proved",
   "theorems": [
    "C06_clock",
    "C06_timesteps",
    "C06_other_calls",
    "C06_clear"
   ],
   "note": ""
  },
  {
   "property": "C07",
   "status": "proved",
   "theorems": [
    "C07_moves_follow_open_links",
    "C07_departure",
    "C07_day"
   ],
   "note": ""
  },
  {
   "property": "C08",
   "status": "proved",
   "theorems": [
    "C08_travel_time",
    "C08_progress",
    "C08_first_day"
   ],
   "note": ""
  },
  {
   "property": "C09",
   "status": "proved",
   "theorems": [
    "C09_step_terminates",
    "C09_budget_irrelevant",
    "C09_zero_length_refuted"
   ],
   "note": ""
  },
  {
   "property": "C10",
   "status": "proved",
   "theorems": [
    "C10_distance_per_step",
    "C10_recent_distance",
    "C10_daily_limit_refuted",
    "C10_recent_limit_refuted"
   ],
   "note": ""
  },
  {
   "property": "C11",
   "status": "proved",
   "theorems": [
    "C11_closed_under_way",
    "C11_close_marks"
   ],
   "note": ""
  },
  {
   "property": "C12",
   "status": "proved",
   "theorems": [
    "C12_never_leaves",
    "C12_never_leaves_day",
    "C12_always_tries",
    "C12_default_chance",
    "C12_no_awareness_refuted"
   ],
   "note": ""
  },
  {
   "property": "C13",
   "status": "proved",
   "theorems": [
    "C13_full_camp",
    "C13_departure"
   ],
   "note": ""
  },
  {
   "property": "C14",
   "status": "proved",
   "theorems": [
    "C14_capacity_multiplier",
    "C14_monotone",
    "C14_full_buffer_refuted"
   ],
   "note": "At or above capacity the multiplier is 0 if the buffer is below 1 (default 0.9); C14_full_buffer_refuted shows the boundary case buffer = 1."
  },
  {
   "property": "C15",
   "status": "proved",
   "theorems": [
    "C15_candidates",
    "C15_selected",
    "C15_weight"
   ],
   "note": ""
  },
  {
   "property": "C16",
   "status": "proved",
   "theorems": [
    "C16_terminates",
    "C16_budget_irrelevant",
    "C16_complete"
   ],
   "note": ""
  },
  {
   "property": "C17",
   "status": "proved",
   "theorems": [
    "C17_choice",
    "C17_all_possible",
    "C17_share_size",
    "C17_shares_disjoint",
    "C17_no_options"
   ],
   "note": ""
  },
  {
   "property": "C18",
   "status": "proved",
   "theorems": [
    "C18_length",
    "C18_sum",
    "C18_nonneg",
    "C18_ratios",
    "C18_zero_sum"
   ],
   "note": ""
  },
  {
   "property": "C19",
   "status": "proved",
   "theorems": [
    "C19_pruning",
    "C19_best_survives",
    "C19_off",
    "C19_duplicates_refuted",
    "C19_no_routes_refuted"
   ],
   "note": "Holds for pairwise different routes, as stated; C19_duplicates_refuted and C19_no_routes_refuted show what happens otherwise."
  },
  {
   "property": "C20",
   "status": "proved",
   "theorems": [
    "C20_close_link",
    "C20_succeeds",
    "C20_any_names",
    "C20_never_entered",
    "C20_twoway",
    "C20_twoway_refuted",
    "C20_equal_string_refuted",
    "C20_unknown_start_refuted"
   ],
   "note": "One direction, own name objects, as stated. twoway=True affects only the opposite direction (C20_twoway, C20_twoway_refuted); equal strings that are other objects match nothing (C20_equal_string_refuted); unknown start names act on the first location (C20_unknown_start_refuted)."
  },
  {
   "property": "C21",
   "status": "proved",
   "theorems": [
    "C21_link",
    "C21_border",
    "C21_location",
    "C21_location_oneway_refuted"
   ],
   "note": "Links, borders and locations with twoway=True; reopening a location with twoway=False never ends if it has closed links (C21_location_oneway_refuted)."
  },
  {
   "property": "C22",
   "status": "proved",
   "theorems": [
    "C22_close_border",
    "C22_no_crossing",
    "C22_terminates"
   ],
   "note": ""
  },
  {
   "property": "C23",
   "status": "proved",
   "theorems": [
    "C23_close_location",
    "C23_isolates",
    "C23_incoming",
    "C23_unknown",
    "C23_self_link_refuted",
    "C23_asymmetric_refuted"
   ],
   "note": "For symmetric networks without self-links; C23_self_link_refuted and C23_asymmetric_refuted show what happens otherwise."
  },
  {
   "property": "C24",
   "status": "proved",
   "theorems": [
    "C24_quiet",
    "C24_calls",
    "C24_country",
    "C24_redirection",
    "C24_redirection_refuted"
   ],
   "note": ""
  },
  {
   "property": "C25",
   "status": "proved",
   "theorems": [
    "C25_open_camp",
    "C25_close_camp",
    "C25_change_type",
    "C25_change_to_conflict_refuted",
    "C25_unknown_name_refuted",
    "C25_idp_mark_refuted"
   ],
   "note": "For existing names in a network with distinct names; C25_unknown_name_refuted, C25_idp_mark_refuted and C25_change_to_conflict_refuted record where the code departs from its documentation."
  },
  {
   "property": "C26",
   "status": "proved",
   "theorems": [
    "C26_add",
    "C26_add_unknown",
    "C26_remove",
    "C26_set_intensity",
    "C26_without_move_chance_refuted",
    "C26_camp_and_town_refuted"
   ],
   "note": "With change_movechance=True, the default; without it no conflict starts (C26_without_move_chance_refuted)."
  },
  {
   "property": "C27",
   "status": "proved",
   "theorems": [
    "C27_refresh",
    "C27_conflict_driven",
    "C27_count"
   ],
   "note": ""
  },
  {
   "property": "C28",
   "status": "proved",
   "theorems": [
    "C28_pick",
    "C28_positive",
    "C28_conflict_zones",
    "C28_no_weight",
    "C28_unique_refuted"
   ],
   "note": "Also that each pick follows the weight shares; picks need not differ (C28_unique_refuted)."
  },
  {
   "property": "C29",
   "status": "proved",
   "theorems": [
    "C29_one_day",
    "C29_day_zero",
    "C29_days"
   ],
   "note": "Any number of days with anything between them; day 0 with the registered people placed is C29_day_zero."
  },
  {
   "property": "C30",
   "status": "proved",
   "theorems": [
    "C30_one_agent",
    "C30_history",
    "C30_not_taken",
    "C30_exhausted_refuted"
   ],
   "note": "Over all histories of API calls. Agents keep appearing when the population is used up (C30_exhausted_refuted)."
  },
  {
   "property": "C31",
   "status": "proved",
   "theorems": [
    "C31_amounts",
    "C31_count"
   ],
   "note": "Modes constant and pop_ratio. The reported number of agents is the number added if rate and populations are not negative."
  },
  {
   "property": "C32",
   "status": "proved",
   "theorems": [
    "C32_lookup",
    "C32_no_list",
    "C32_monotone"
   ],
   "note": ""
  },
  {
   "property": "C33",
   "status": "proved",
   "theorems": [
    "C33_line",
    "C33_one_line",
    "C33_one_whole",
    "C33_exact",
    "C33_between",
    "C33_before",
    "C33_after",
    "C33_monotone",
    "C33_raw"
   ],
   "note": "Exact rationals; in floats a value just below an integer may lose one."
  },
  {
   "property": "C34",
   "status": "proved",
   "theorems": [
    "C34_difference",
    "C34_succeeds",
    "C34_telescope",
    "C34_day_zero_refuted",
    "C34_empty_start_refuted"
   ],
   "note": "Days 1..T as stated; C34_day_zero_refuted and C34_empty_start_refuted show what happens on day 0."
  },
  {
   "property": "C35",
   "status": "proved",
   "theorems": [
    "C35_link_up",
    "C35_unknown"
   ],
   "note": ""
  },
  {
   "property": "C36",
   "status": "proved",
   "theorems": [
    "C36_one_owner",
    "C36_balance",
    "C36_whole_run",
    "C36_clearing_refuted",
    "C36_closing_refuted"
   ],
   "note": "C36_clearing_refuted and C36_closing_refuted: clearing locations or closing roads between the calls shifts the turns, so balance is lost."
  },
  {
   "property": "C37",
   "status": "proved",
   "theorems": [
    "C37_update",
    "C37_evolve",
    "C37_modes",
    "C37_modes_run",
    "C37_no_locations_refuted",
    "C37_idps_refuted",
    "C37_spawned_refuted"
   ],
   "note": "C37_no_locations_refuted: with no locations the high-latency mode fails. C37_idps_refuted and C37_spawned_refuted: numIDPs and numAgentsSpawned come out multiplied by the number of processes."
  },
  {
   "property": "C38",
   "status": "proved",
   "theorems": [
    "C38_partition",
    "C38_segments",
    "C38_synchronize",
    "C38_same_scores",
    "C38_stored_routes_refuted"
   ],
   "note": ""
  },
  {
   "property": "C39",
   "status": "proved",
   "theorems": [
    "C39_round_trip",
    "C39_ignored",
    "C39_append",
    "C39_comma_refuted"
   ],
   "note": "Names must be non-empty, not start with # and contain neither comma nor line end; C39_comma_refuted shows a name that is lost."
  },
  {
   "property": "C40",
   "status": "proved",
   "theorems": [
    "C40_zones",
    "C40_levels",
    "C40_others",
    "C40_table",
    "C40_exact_value_refuted",
    "C40_initial_zone_refuted"
   ],
   "note": "C40_exact_value_refuted: an entry equal to the threshold does not end a conflict. C40_initial_zone_refuted: a conflict zone of the location file stays one although the table lists 0 for all days."
  },
  {
   "property": "C41",
   "status": "proved",
   "theorems": [
    "C41_stored",
    "C41_best",
    "C41_major",
    "C41_major_refuted",
    "C41_selected",
    "C41_current_refuted"
   ],
   "note": "Exact up to the representation of rationals (pow_respects). C41_best also holds with major routes. C41_major_refuted: routes stored for major routes lack their first stop. C41_current_refuted: weights are computed before all scores of the step are known."
  },
  {
   "property": "C42",
   "status": "proved",
   "theorems": [
    "C42_scores",
    "C42_total",
    "C42_one",
    "C42_itself",
    "C42_positive",
    "C42_forecast_refuted"
   ],
   "note": "Exact product of factors for all locations; positive without flood forecast. C42_forecast_refuted: with the forecaster a flood zone with no forecast flood has score 0."
  },
  {
   "property": "C43",
   "status": "proved",
   "theorems": [
    "C43_arrivals",
    "C43_buffers"
   ],
   "note": "Durations are the age of the agent since creation, as recorded by the code (timesteps_since_departure is never reset)."
  },
  {
   "property": "C44",
   "status": "proved",
   "theorems": [
    "C44_values",
    "C44_steps",
    "C44_v1",
    "C44_flood_rules",
    "C44_conflict_driven",
    "C44_flood_driven",
    "C44_switches",
    "C44_excluded",
    "C44_accepted",
    "C44_independent",
    "C44_same_settings",
    "C44_defaults",
    "C44_record",
    "C44_fields",
    "C44_optional_fields",
    "C44_used",
    "C44_sinks",
    "C44_leftover_refuted",
    "C44_sinks_refuted"
   ],
   "note": "From the value returned by yaml.safe_load. C44_leftover_refuted: tables of optional flood sections of an earlier file stay in force. C44_sinks_refuted: camps_are_sinks is never read from the file (misspelt key)."
  },
  {
   "property": "C45",
   "status": "proved",
   "theorems": [
    "C45_survives_closing",
    "C45_traffic_grows",
    "C45_traffic_bound"
   ],
   "note": "Traffic counters per link object for every history; the copies made by closing and reopening keep their counters."
  },
  {
   "property": "C46",
   "status": "proved",
   "theorems": [
    "C46_log",
    "C46_writer",
    "C46_no_agents_refuted",
    "C46_region_refuted"
   ],
   "note": "All log levels. C46_no_agents_refuted and C46_region_refuted show where logging fails."
  },
  {
   "property": "C47",
   "status": "proved",
   "theorems": [
    "C47_places_stay"
   ],
   "note": ""
  },
  {
   "property": "C48",
   "status": "proved",
   "theorems": [
    "C48_attributes_fit"
   ],
   "note": ""
  },
  {
   "property": "C49",
   "status": "proved",
   "theorems": [
    "C49_initial"
   ],
   "note": ""
  },
  {
   "property": "C50",
   "status": "proved",
   "theorems": [
    "C50_total",
    "C50_closed_road_refuted"
   ],
   "note": "C50_closed_road_refuted: agents on a road closed under them are missing from the total."
  },
  {
   "property": "C51",
   "status": "proved",
   "theorems": [
    "C51_agents"
   ],
   "note": ""
  },
  {
   "property": "C52",
   "status": "proved",
   "theorems": [
    "C52_exchange",
    "C52_hand_over",
    "C52_interval",
    "C52_serial",
    "C52_serial_refuted",
    "C52_no_entry_refuted"
   ],
   "note": "Coupling type file, submodels macro and micro. C52_serial, C52_serial_refuted: without MPI an exchange fails unless all agents are in coupled locations. C52_no_entry_refuted: an incoming location without an entry ends the run."
  },
  {
   "property": "C53",
   "status": "proved",
   "theorems": [
    "C53_mean",
    "C53_one_instance",
    "C53_success",
    "C53_order_refuted"
   ],
   "note": "C53_order_refuted: a name that only a later instance gives makes reading fail."
  },
  {
   "property": "C54",
   "status": "proved",
   "theorems": [
    "C54_added",
    "C54_weights"
   ],
   "note": "C54_added has no hypothesis but that the call returns. Scores of new locations: C42_one."
  },
  {
   "property": "C55",
   "status": "proved",
   "theorems": [
    "C55_stored",
    "C55_locations_file",
    "C55_links_file",
    "C55_one_road_refuted"
   ],
   "note": "C55_one_road_refuted: a redirection mark 1 builds the road twice."
  },
  {
   "property": "C56",
   "status": "proved",
   "theorems": [
    "C56_agents"
   ],
   "note": "Names occurring twice get one agent each. A first row that is a comment leaves no attribute names, so later rows may then have one cell only."
  },
  {
   "property": "C57",
   "status": "proved",
   "theorems": [
    "C57_score",
    "C57_home_refuted",
    "C57_population_refuted",
    "C57_ethnicity_refuted"
   ],
   "note": "C57_score is an equivalence with the specification `attraction`. The refuted theorems show rules that do not do what their names say."
  },
  {
   "property": "C58",
   "status": "proved",
   "theorems": [
    "C58_chance",
    "C58_dry_forecast_refuted"
   ],
   "note": "C58_chance is an equivalence with the specification `leaves_with`; with the forecaster on the chance is 0 unless a flood is forecast (C58_dry_forecast_refuted)."
  },
  {
   "property": "C59",
   "status": "proved",
   "theorems": [
    "C59_read",
    "C59_subtract",
    "C59_steps",
    "C59_shown",
    "C59_period"
   ],
   "note": "Both directions (iff), for texts as strptime with %Y-%m-%d accepts them in CPython 3 (one or two digits for month and day, a space before a one digit day)."
  },
  {
   "property": "C60",
   "status": "proved",
   "theorems": [
    "C60_file",
    "C60_table",
    "C60_override",
    "C60_override_refuted",
    "C60_empty_cell_refuted"
   ],
   "note": "C60_override_refuted: the file given to override_input is never used, since every field keeps its values. C60_empty_cell_refuted: a later row with an empty first cell makes the file unreadable."
  },
  {
   "property": "C61",
   "status": "proved",
   "theorems": [
    "C61_same_days",
    "C61_rows",
    "C61_start_refuted",
    "C61_sum_refuted",
    "C61_end_refuted",
    "C61_days_refuted"
   ],
   "note": "The sum is not the sum of the two series: C61_start_refuted (crash if the first series starts earlier), C61_sum_refuted (the next instead of the present value of the first series), C61_end_refuted (later rows of the first series are lost), C61_days_refuted (days are repeated)."
  },
  {
   "property": "C62",
   "status": "proved",
   "theorems": [
    "C62_correction",
    "C62_file",
    "C62_continuous",
    "C62_no_row_refuted"
   ],
   "note": "C62_no_row_refuted: a date without a row crashes with UnboundLocalError instead of being reported."
  },
  {
   "property": "C63",
   "status": "proved",
   "theorems": [
    "C63_largest",
    "C63_span_refuted",
    "C63_interpolated",
    "C63_unknown"
   ],
   "note": "C63_span_refuted: the documented time span is overrun if no row is on the last day."
  },
  {
   "property": "C64",
   "status": "proved",
   "theorems": [
    "C64_updated",
    "C64_flood_day",
    "C64_stored_own",
    "C64_own_kept",
    "C64_shared_refuted"
   ],
   "note": "C64_shared_refuted: locations added without attributes share one dictionary and all get the value of the last one."
  },
  {
   "property": "C65",
   "status": "proved",
   "theorems": [
    "C65_amounts"
   ],
   "note": "Modes \"constant\" and \"pop_ratio\" (other modes but \"poisson\" send nobody)."
  },
  {
   "property": "C66",
   "status": "proved",
   "theorems": [
    "C66_lines",
    "C66_start",
    "C66_inputs",
    "C66_camps"
   ],
   "note": "A camp with the name \"total\" is excluded from the statement about the data column."
  },
  {
   "property": "C67",
   "status": "proved",
   "theorems": [
    "C67_balance",
    "C67_registered",
    "C67_driven",
    "C67_start"
   ],
   "note": "C67_driven: with conflict- or flood-driven spawning total error, registered people and debt are printed as 0."
  },
  {
   "property": "C68",
   "status": "proved",
   "theorems": [
    "C68_relative",
    "C68_zero",
    "C68_absolute",
    "C68_absolute_whole",
    "C68_arrays",
    "C68_arrays_differ",
    "C68_mean",
    "C68_mase",
    "C68_mase_defined",
    "C68_mase_naive_refuted"
   ],
   "note": "C68_mase_naive_refuted: the naive forecast itself need not get the error 1. calculate_ln_accuracy_ratio is not modelled (logarithm)."
  },
  {
   "property": "C69",
   "status": "proved",
   "theorems": [
    "C69_one_process",
    "C69_head_counts",
    "C69_capacity_refuted",
    "C69_stops_refuted"
   ],
   "note": "C69_capacity_refuted: capacities are checked against the head counts of the last synchronisation. C69_stops_refuted: the parallel version logs the intermediate stops of earlier days again. The statement is about parallel runs that succeed (the parallel addAgent also fails where a population of at most 1 is left)."
  },
  {
   "property": "C70",
   "status": "proved",
   "theorems": [
    "C70_lines",
    "C70_start",
    "C70_inputs",
    "C70_idp_totals"
   ],
   "note": "With closures the number of people printed may miss agents on closed roads (C72_closures_refuted, C50). C70_idp_totals: with log level idp_totals the program fails."
  },
  {
   "property": "C71",
   "status": "proved",
   "theorems": [
    "C71_balance"
   ],
   "note": "For spawning from the registered totals (from_data); conflict- and flood-driven spawning are excluded."
  },
  {
   "property": "C72",
   "status": "proved",
   "theorems": [
    "C72_processes",
    "C72_serial",
    "C72_village_refuted",
    "C72_closures_refuted"
   ],
   "note": "C72_village_refuted: with a default move chance below 0.005 a location of unknown type is a camp in run_par.py only. C72_closures_refuted: the total misses agents on a closed road."
  },
  {
   "property": "C73",
   "status": "proved",
   "theorems": [
    "C73_traffic",
    "C73_other_calls",
    "C73_log"
   ],
   "note": "The attribute part assumes that attribute names do not repeat (Python dictionaries)."
  },
  {
   "property": "C74",
   "status": "proved",
   "theorems": [
    "C74_days",
    "C74_rows",
    "C74_success",
    "C74_level_refuted",
    "C74_options",
    "C74_fatalities_refuted",
    "C74_after_refuted"
   ],
   "note": "pandas before 2.0 (DataFrame.append); missing cells are not modelled. Refuted beside it: that the option fatalities or another level has an effect, and that a conflict date counts days after the start."
  },
  {
   "property": "C75",
   "status": "proved",
   "theorems": [
    "C75_conflicts",
    "C75_attributes",
    "C75_days",
    "C75_short_row_refuted",
    "C75_same_name_refuted",
    "C75_day_numbers_refuted",
    "C75_rows",
    "C75_major_comments_refuted",
    "C75_major_blank_refuted",
    "C75_major_blank"
   ],
   "note": "The csv module is trusted. Refuted beside it: that the day numbers of the first column have an effect, that short rows or repeated names do no harm, that comments and blank lines in the file of major routes are skipped."
  },
  {
   "property": "C76",
   "status": "proved",
   "theorems": [
    "C76_changes",
    "C76_dates_refuted"
   ],
   "note": "C76_changes is the first sentence, C76_dates_refuted the second one: it refutes, for all tables and days, that conflict dates of locations.csv start conflicts."
  },
  {
   "property": "C77",
   "status": "proved",
   "theorems": [
    "C77_total",
    "C77_conserved",
    "C77_stranded_refuted",
    "C77_ghosts",
    "C77_conflicts",
    "C77_no_failure"
   ],
   "note": "C77_total is exact: it says who is lost. C77_stranded_refuted shows that the plain sentence without the exception is false of the code. The table is handed over as text; the file system and waiting for the file are not modelled."
  },
  {
   "property": "C78",
   "status": "proved",
   "theorems": [
    "C78_tells",
    "C78_days",
    "C78_only_evolve",
    "C78_clear_refuted"
   ],
   "note": "C78_days needs log level 1 or at least 3 at every step (level 2 writes extra lines that cannot be told from main lines). C78_clear_refuted shows that numbers are given again after clearLocationsFromAgents."
  },
  {
   "property": "C79",
   "status": "proved",
   "theorems": [
    "C79_written",
    "C79_read",
    "C79_columns",
    "C79_main_program",
    "C79_agents_csv_refuted",
    "C79_comma_refuted"
   ],
   "note": "C79_agents_csv_refuted and C79_comma_refuted show that both conditions are needed. The text of a float is an argument of the model. The file system is a string."
  },
  {
   "property": "C80",
   "status": "proved",
   "theorems": [
    "C80_same",
    "C80_quiet",
    "C80_survives",
    "C80_nobody_refuted",
    "C80_region_refuted",
    "C80_lists_refuted",
    "C80_program",
    "C80_program_quiet"
   ],
   "note": "C80_survives needs: no granularity by region with an agent log, somebody at time 0 with an agent log, no list among attribute values with a link log of level 2; C80_nobody_refuted, C80_region_refuted and C80_lists_refuted show that each is needed. Log levels are constant over a run there, since attributes for logs are created by constructors. Printed warnings and the log level init are not modelled."
  },
  {
   "property": "C81",
   "status": "proved",
   "theorems": [
    "C81_names",
    "C81_any_schedule",
    "C81_all_finish",
    "C81_waits",
    "C81_stuck",
    "C81_open_file_refuted",
    "C81_instances_refuted",
    "C81_old_files_refuted"
   ],
   "note": "C81_any_schedule and C81_all_finish assume that no file is read while it is open for writing and that the folder is empty at the start. The code ensures neither: C81_open_file_refuted, C81_instances_refuted, C81_old_files_refuted. Programs are arbitrary functions; flee_member makes one of a parallel simulation. A pass of the waiting loop is one step. Crashes of the operating system and the file system are not modelled."
  },
  {
   "property": "C82",
   "status": "proved",
   "theorems": [
    "C82_names",
    "C82_read",
    "C82_one_word",
    "C82_once",
    "C82_no_folder",
    "C82_main_program",
    "C82_no_camps_refuted",
    "C82_shares",
    "C82_some_row",
    "C82_values",
    "C82_bad_weights",
    "C82_no_default",
    "C82_no_values",
    "C82_tables",
    "C82_order_refuted",
    "C82_words_refuted",
    "C82_place_name_refuted"
   ],
   "note": "Reading CSV is left to pandas: a file is given by its frame. C82_tables carries the theorems on tables of values and weights (C48, C49, C66 and others) over to frames. What users may expect and is false: C82_no_camps_refuted (a run without camps never reads the files), C82_order_refuted (with the same random numbers the result depends on the order in which the system lists the files), C82_words_refuted (only the first word of a file name counts), C82_place_name_refuted."
  },
  {
   "property": "C83",
   "status": "proved",
   "theorems": [
    "C83_mean",
    "C83_as_files",
    "C83_same_names",
    "C83_unknown",
    "C83_as_files_refuted",
    "C83_conserved"
   ],
   "note": "Sending and receiving is left to MUSCLE3: what arrives in the slots is given. Names must be plain (no comma, no line break, no leading #). What users may expect and is false: C83_as_files_refuted (a manager that lacks the name of an incoming location makes the instance fail with a KeyError, though files work)."
  },
  {
   "property": "C84",
   "status": "proved",
   "theorems": [
    "C84_locations",
    "C84_total",
    "C84_new",
    "C84_short",
    "C84_nothing",
    "C84_same_name_refuted",
    "C84_old_file_refuted"
   ],
   "note": "numpy.loadtxt is modelled for integers in lines with commas. Boundaries are theorems: C84_short (a single exchange, or no outgoing location, makes reading fail), C84_same_name_refuted (two locations under one name shift the columns of the names after them), C84_old_file_refuted (saving to the files of an earlier run makes them unreadable)."
  },
  {
   "property": "C85",
   "status": "proved",
   "theorems": [
    "C85_errors",
    "C85_run",
    "C85_run_rescaled",
    "C85_short",
    "C85_camp",
    "C85_scaled",
    "C85_totals",
    "C85_shares",
    "C85_numbers",
    "C85_times",
    "C85_spaces_refuted",
    "C85_sim_refuted",
    "C85_sloped_refuted",
    "C85_total_refuted"
   ],
   "note": "Floats are exact rationals; inf and nan are a missing number. Boundaries are theorems: C85_short (fewer than 31 days, or no camps, end with an IndexError), C85_spaces_refuted, C85_sim_refuted (names), C85_sloped_refuted (the sloped forecast is day times the number of the training day), C85_total_refuted (one camp without an error leaves no total)."
  },
  {
   "property": "C86",
   "status": "proved",
   "theorems": [
    "C86_file",
    "C86_stored",
    "C86_country",
    "C86_same_file_refuted",
    "C86_river",
    "C86_rain",
    "C86_bounds",
    "C86_more_rain",
    "C86_two_ways",
    "C86_crossing_refuted"
   ],
   "note": "The bounds of rain and the measuring point of a river are arguments. C86_country and C86_same_file_refuted: locations.csv of the base model is refused; C86_crossing_refuted: the way back over a crossing knows nothing of the river. As the class is written, get_distance of a weather road asks for the day, which no caller of the base model passes; C86_river to C86_two_ways are about the function itself."
  },
  {
   "property": "C87",
   "status": "proved",
   "theorems": [
    "C87_graph",
    "C87_edge",
    "C87_linked",
    "C87_closed"
   ],
   "note": "C87_linked and C87_closed assume that no two locations share a name (distinct_names). The argument use_ids_instead_of_names is never read by the code."
  },
  {
   "property": "C88",
   "status": "proved",
   "theorems": [
    "C88_written",
    "C88_read",
    "C88_days",
    "C88_totals",
    "C88_total_cell",
    "C88_attribute_cell",
    "C88_same_cell_refuted",
    "C88_comma_refuted",
    "C88_values",
    "C88_values_refuted"
   ],
   "note": "The text Python prints for a float is an argument of the theorems. C88_same_cell_refuted and C88_comma_refuted show why the conditions on texts are needed."
  },
  {
   "property": "C89",
   "status": "proved",
   "theorems": [
    "C89_last_instance",
    "C89_never_more",
    "C89_agreeing_instances",
    "C89_mean_unique",
    "C89_mean_refuted",
    "C89_at_any_moment",
    "C89_all_days_refuted"
   ],
   "note": "The intended property (the combined file holds the mean) is false of the code: C89_mean_refuted, C89_all_days_refuted. The theorems say what the file holds instead."
  },
  {
   "property": "C90",
   "status": "proved",
   "theorems": [
    "C90_same_order",
    "C90_colour",
    "C90_conflict_colour",
    "C90_other_colour",
    "C90_exists",
    "C90_empty_refuted",
    "C90_twice_refuted"
   ],
   "note": "With a repeated name the lists do not fit (C90_twice_refuted); a line without coordinates stops the program (C90_empty_refuted)."
  },
  {
   "property": "C91",
   "status": "proved",
   "theorems": [
    "C91_curves",
    "C91_no_camps",
    "C91_zero",
    "C91_at_most_2",
    "C91_run",
    "C91_normal_at_most_2_refuted",
    "C91_no_total_refuted",
    "C91_total_error_refuted",
    "C91_pictures",
    "C91_agents",
    "C91_program",
    "C91_words",
    "C91_idps",
    "C91_words_refuted",
    "C91_idps_refuted"
   ],
   "note": "That every run can be plotted is false of the code (C91_words_refuted, C91_idps_refuted), and so is that the curve is the column \"Total error\" (C91_total_error_refuted; C91_run says how they are related)."
  },
  {
   "property": "C92",
   "status": "proved",
   "theorems": [
    "C92_printed",
    "C92_graph",
    "C92_exported",
    "C92_parallel_refuted"
   ],
   "note": "Of two roads between the same places networkx keeps only the last (C92_parallel_refuted)."
  },
  {
   "property": "C93",
   "status": "proved",
   "theorems": [
    "C93_total",
    "C93_at_most",
    "C93_conserved",
    "C93_vanish_refuted"
   ],
   "note": "People who are still in a place that is only incoming when the next exchange clears it vanish from both simulations (C93_vanish_refuted); that no file is read too early is a hypothesis, as in C81."
  }
 ]
}