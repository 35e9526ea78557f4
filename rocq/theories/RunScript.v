(** * RunScript: runscripts/run.py

    The main program.  Settings are read already; the rows of the input files are those
    that the csv library returns. *)

From Verif Require Import Base State Moving Crawling Scoring Diagnostics Flee DataTable Spawning InputGeography Dates DataFiles Analysis.
Local Open Scope string_scope.
Local Open Scope Q_scope.

(** What the program reads: sim_period.csv, the third argument, the tables of the network
    (locations, routes, closures, conflicts, flood levels), location_changes.csv,
    agents.csv if it is to be read, the files of the data directory, data_layout.csv,
    registration_corrections.csv if it exists, the scale factor, the demographics (what
    [demographics_of_run] of Demographics.v reads, so none without camps), whether there is a conflict file, and the log level idp_totals. *)
Record run_input : Type := RunInput {
  in_period : csv;
  in_days : Z;
  in_geo : igeo;
  in_changes : list row;
  in_agents : option (list row);
  in_files : directory;
  in_layout : csv;
  in_corrections : option csv;
  in_factor : Z;
  in_dm : demographics;
  in_conflict_file : bool;
  in_idp_totals : Z }.

(** A line of the output: day, date, for each camp the simulated number, the number in
    the data and the error; total error, people in camps by the data, agents, total by
    the data, agents in camps, debt, and displaced people in IDP camps. *)
Record report : Type := Report {
  r_day : Z;
  r_date : string;
  r_camps : list (Z * Z * Q);
  r_error : Q;
  r_data : Z;
  r_total : Z;
  r_raw : Z;
  r_in_camps : Z;
  r_debt : Z;
  r_idps : option Z }.

(** [lm[name]]: the location stored last under the name *)
Definition lm_index (e : eco) (name : string) : res nat :=
  of_option KeyError (last_index name (map lname (e_locations e)) 0 None).
Definition lm_numAgents (e : eco) (name : string) : res Z :=
  i <- lm_index e name ;; l <- loc_of e i ;; Ok (l_numAgents l).

(** Lines 14-60: everything before the loop.  The result is the start date, the number of
    days, the tables, the data, the camps, and the ecosystem. *)
Record world : Type := World {
  w_start : string; w_end : Z; w_geo : igeo; w_data : dtable; w_camps : list string; w_eco : eco; w_rng : rng }.

Definition set_up (S : settings) (o : oracle) (inp : run_input) (g : rng) : res world :=
  '(start, n) <- read_sim_period (in_period inp) ;;
  let end_time := if (0 <? in_days inp)%Z then in_days inp else n in
  '(e, g1, ig) <- store_input S o (in_factor inp) (in_geo inp) (in_changes inp) empty_eco g ;;
  e1 <- match in_agents inp with Some rows => read_agents S rows e | None => Ok e end ;;
  d0 <- new_table (in_files inp) (in_layout inp) start (in_factor inp) (s_EmptyCampsOnDay0 S) ;;
  d <- read_corrections start (in_corrections inp) d0 ;;
  let camps := get_camp_names e1 in
  '(e2, g2) <- foldM (fun st c => let '(e, g) := st in
                        i <- lm_index e c ;; add_initial_refugees S (in_dm inp) d i e g) camps (e1, g1) ;;
  Ok (World start end_time ig d camps e2 g2).

(** Lines 83-120: the line of output of day [t] *)
Definition report_day (idp_totals : Z) (start : string) (camps : list string) (t : Z) (sp : spawn_state) (d : dtable) (e : eco)
  : res report :=
  loc_data <- mapM (fun c => _ <- lm_index e c ;; get_field d c t true) camps ;;
  sims <- mapM (lm_numAgents e) camps ;;
  let pairs := combine sims loc_data in
  let abs_errors := map (fun p => abs_error (inject_Z (fst p)) (inject_Z (snd p))) pairs in
  date <- steps_to_date t start ;;
  let rows := map (fun p => (fst p, snd p, rel_error (inject_Z (fst p)) (inject_Z (snd p)))) pairs in
  let agents := Z.of_nat (num_agents e) in
  let idps := if (0 <? idp_totals)%Z then Some (num_idps e) else None in
  if (0 <? sp_raw sp)%Z then
    Ok (Report t (show_date date) rows (sumQ abs_errors / inject_Z (sp_raw sp)) (sumZ loc_data) agents (sp_raw sp)
               (sumZ sims) (sp_debt sp) idps)
  else Ok (Report t (show_date date) rows 0 0 agents 0 (sumZ sims) 0 idps).

(** Lines 70-122: one day.  The state is that of spawning.py, the data, the ecosystem,
    the random numbers and the lines printed so far. *)
Definition run_day (fuel : nat) (S : settings) (o : oracle) (inp : run_input) (w : world)
    (st : spawn_state * dtable * eco * rng * list report) (t : nat)
  : res (spawn_state * dtable * eco * rng * list report) :=
  let '(sp, d, e, g, lines) := st in
  let day := Z.of_nat t in
  e1 <- add_new_conflict_zones S (in_conflict_file inp) (w_geo w) day e ;;
  '(_, sp1, d1, e2, g2) <- spawn_daily_displaced S (in_dm inp) day sp d e1 g ;;
  e3 <- refresh_spawn_weights S e2 ;;
  e4 <- enact_border_closures fuel S day true e3 ;;
  '(e5, g5) <- evolve fuel S o e4 g2 ;;
  line <- report_day (in_idp_totals inp) (w_start w) (w_camps w) day sp1 d1 e5 ;;
  Ok (sp1, d1, e5, g5, (lines ++ [line])%list).

(** The whole program: the camps in the header and the lines of the output *)
Definition run_script (fuel : nat) (S : settings) (o : oracle) (inp : run_input) (g : rng) : res (list string * list report) :=
  w <- set_up S o inp g ;;
  '(_, _, _, _, lines) <- foldM (run_day fuel S o inp w) (seq 0 (Z.to_nat (w_end w)))
                                (Spawn 0 0, w_data w, w_eco w, w_rng w, []) ;;
  Ok (w_camps w, lines).
