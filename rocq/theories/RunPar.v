(** * RunPar: runscripts/run_par.py, the main program on several processes

    Every process runs the script.  Reading the settings is not modelled; the rows of the
    input files are those that the csv library returns, the same on every process. *)

From Verif Require Import Base State Moving Crawling Scoring Diagnostics Flee DataTable Spawning InputGeography Dates DataFiles Analysis RunScript
  Api Pflee ParApi.
Local Open Scope string_scope.
Local Open Scope Q_scope.

(** ** spawning.py on a pflee ecosystem

    [e.insertAgent] and [e.addAgent] are those of pflee.py; the rest is as in Spawning.v. *)

(** The bodies of the loops of spawning.py lines 209-214, 259-262, 286-289, 321-323 *)
Definition par_spawn_one (S : settings) (dm : demographics) (take : bool) (i : nat)
    (st : eco * rng) : res (eco * rng) :=
  let '(e, g) := st in
  l <- loc_of e i ;;
  '(attrs, g1) <- draw_samples dm (lname l) g ;;
  e1 <- (if take : bool then par_add_agent S i attrs e else par_insert_agent i attrs e) ;;
  Ok (e1, g1).

Definition par_spawn_n (S : settings) (dm : demographics) (take : bool) (i : nat) (n : Z)
    (st : eco * rng) : res (eco * rng) :=
  foldM (fun st _ => par_spawn_one S dm take i st) (seq 0 (Z.to_nat n)) st.

(** add_initial_refugees (spawning.py 185-214) for location [i] *)
Definition par_add_initial_refugees (S : settings) (dm : demographics) (d : dtable) (i : nat)
    (e : eco) (g : rng) : res (eco * rng) :=
  if s_EmptyCampsOnDay0 S then Ok (e, g)
  else
    l <- loc_of e i ;;
    n0 <- (if s_InsertDayZero S then get_field d (lname l) 0 true else Ok 0%Z) ;;
    at_ <- loc_attrs e l ;;
    n1 <- py_int (dict_get_default "initial_idps" at_ (VInt 0)) ;;
    par_spawn_n S dm false i (n0 + n1)%Z (e, g).

(** The loops of spawning.py lines 242-264 and 269-291 *)
Definition par_spawn_loop (S : settings) (dm : demographics)
    (number : eco -> location -> rng -> res (Z * rng)) (e : eco) (g : rng)
  : res (Z * eco * rng) :=
  foldM (fun st i =>
           let '(total, e1, g1) := st in
           l <- loc_of e1 i ;;
           '(n, g2) <- number e1 l g1 ;;
           '(e2, g3) <- par_spawn_n S dm true i n (e1, g2) ;;
           Ok ((total + n)%Z, e2, g3))
        (seq 0 (List.length (e_locations e))) (0%Z, e, g).

(** Lines 321-323 *)
Definition par_spawn_at (S : settings) (dm : demographics) (locs : list nat) (st : eco * rng)
  : res (eco * rng) :=
  foldM (fun st i => par_spawn_one S dm true i st) locs st.

(** spawn_daily_displaced (spawning.py 217-325) *)
Definition par_spawn_daily_displaced (S : settings) (dm : demographics) (t : Z)
    (sp : spawn_state) (d : dtable) (e : eco) (g : rng)
  : res (Z * spawn_state * dtable * eco * rng) :=
  if s_conflict_driven_spawning S then
    '(n, e1, g1) <- par_spawn_loop S dm (fun _ l g => conflict_spawn_number S l g) e g ;;
    Ok (n, sp, d, e1, g1)
  else if s_flood_driven_spawning S then
    '(n, e1, g1) <- par_spawn_loop S dm (fun e1 l g => at_ <- loc_attrs e1 l ;;
                                                       flood_spawn_number S at_ l g) e g ;;
    Ok (n, sp, d, e1, g1)
  else
    '(diff1, d1) <- get_daily_difference d t true (s_sum_from_camps S) ;;
    '(diff2, d2) <- get_daily_difference d1 t true (s_sum_from_camps S) ;;
    let raw := (sp_raw sp + diff2)%Z in
    let zero_day := (s_InsertDayZero S && (t =? 0)%Z)%bool in
    let e1 := if zero_day then reduce_capacities d2 e else e in
    let new0 := if zero_day then 0%Z else (diff1 - sp_debt sp)%Z in
    let '(n, debt) := settle_debt new0 (sp_debt sp) in
    '(locs, g1) <- pick_spawn_locations n e1 g ;;
    '(e2, g2) <- par_spawn_at S dm locs (e1, g1) ;;
    Ok (n, Spawn raw debt, d2, e2, g2).

(** ** InputGeography.py on a pflee ecosystem *)

(** ReadAgentsFromCSV (InputGeography.py 365-405) *)
Definition par_read_agent_row (S : settings) (st : bool * option (list string) * eco) (r : row)
  : res (bool * option (list string) * eco) :=
  let '(first, headers, e) := st in
  c <- is_comment r ;;
  if c : bool then Ok (false, headers, e)
  else if first then Ok (false, Some (map sval (tl r)), e)
  else
    d <- agent_attributes headers (tl r) 0 [] ;;
    name <- cellv r 0 ;;
    e1 <- foldM (fun e1 i =>
                   n <- of_option IndexError (nth_error (e_locationNames e1) i) ;;
                   if String.eqb (sval n) name then par_add_agent S i d e1 else Ok e1)
                (seq 0 (List.length (e_locationNames e))) e ;;
    Ok (false, headers, e1).

Definition par_read_agents (S : settings) (rows : list row) (e : eco) : res eco :=
  '(_, _, e1) <- foldM (par_read_agent_row S) rows (true, None, e) ;; Ok e1.

(** The body of the loop of lines 424-515.  [addLocation] is called without a move chance
    (480-503); the default is that of pflee.py line 904, -1.0. *)
Definition par_store_location (S : settings) (o : oracle) (factor : Z) (ig : igeo)
    (home : string) (st : eco * rng) (loc : row) : res (eco * rng) :=
  let '(e, g) := st in
  name <- cell loc 0 ;;
  c7 <- cellv loc 7 ;;
  population <- population_cell factor c7 ;;
  c3 <- cellv loc 3 ;; x <- float_cell c3 ;;
  c4 <- cellv loc 4 ;; y <- float_cell c4 ;;
  c1 <- cellv loc 1 ;;
  let region := if empty_cell c1 then "unknown"%string else c1 in
  c2 <- cellv loc 2 ;;
  let country := if empty_cell c2 then "unknown"%string else c2 in
  let foreign := negb (String.eqb country home) in
  c5 <- cellv loc 5 ;;
  ltype <- (if str_in "conflict" (lower c5) then
              c6 <- cellv loc 6 ;;
              d <- of_option ValueError (parse_Z c6) ;;
              Ok (if (0 <? d)%Z then "town"%string else c5)
            else Ok c5) ;;
  attrs <- extra_attributes (ig_columns ig) 8 (skipn 8 loc) [] ;;
  let camp := str_in "camp" (lower ltype) in
  let i := List.length (e_locations e) in
  '(e1, g1) <- par_add_location S o name region x y (Some ltype) (-1)
                 (if camp then population else (-1)%Z) (if camp then 0%Z else population)
                 foreign country (Some attrs) e g ;;
  mrs <- mapM (major_routes_of (sval name)) (ig_major_routes ig) ;;
  Ok (up_loc i (up_l_major_routes (fun l => l ++ List.concat mrs)%list) e1, g1).

(** StoreInputGeographyInEcosystem (lines 408-575) *)
Definition par_store_input (S : settings) (o : oracle) (factor : Z) (ig : igeo)
    (changes : list row) (e : eco) (g : rng) : res (eco * rng * igeo) :=
  first <- of_option IndexError (nth_error (ig_locations ig) 0) ;;
  hc <- cellv first 2 ;;
  let home := if empty_cell hc then "unknown"%string else hc in
  '(e1, g1) <- foldM (par_store_location S o factor ig home) (ig_locations ig) (e, g) ;;
  e2 <- foldM (store_link ig) (ig_links ig) e1 ;;
  rows <- of_option AttributeError (ig_closures ig) ;;
  cs <- mapM store_closure rows ;;
  lc <- read_plain changes ;;
  Ok (up_e_closures (fun _ => cs) e2, g1,
      IGeo (ig_locations ig) (ig_columns ig) (ig_links ig) (ig_link_columns ig)
           (ig_major_routes ig) (ig_closures ig) (Some lc) (ig_conflicts ig)
           (ig_attributes ig)).

(** ** run_par.py *)

(** A process: its world before the loop, the state of spawning.py, the data, the
    ecosystem and the random numbers, what it has printed: the header (the camps) and the
    lines. *)
Record proc : Type := Proc {
  p_world : world; p_sp : spawn_state; p_data : dtable; p_eco : eco; p_rng : rng;
  p_header : option (list string); p_lines : list report }.

(** Lines 15-72.  Line 65 adds to the variable [output], which does not exist yet. *)
Definition par_set_up (S : settings) (o : oracle) (inp : run_input) (e0 : eco) (g : rng) : res proc :=
  '(start, n) <- read_sim_period (in_period inp) ;;
  let end_time := if (0 <? in_days inp)%Z then in_days inp else n in
  '(e, g1, ig) <- par_store_input S o (in_factor inp) (in_geo inp) (in_changes inp) e0 g ;;
  e1 <- match in_agents inp with Some rows => par_read_agents S rows e | None => Ok e end ;;
  d0 <- new_table (in_files inp) (in_layout inp) start (in_factor inp) (s_EmptyCampsOnDay0 S) ;;
  d <- read_corrections start (in_corrections inp) d0 ;;
  let camps := get_camp_names e1 in
  '(e2, g2) <- foldM (fun st c => let '(e, g) := st in
                        i <- lm_index e c ;; par_add_initial_refugees S (in_dm inp) d i e g) camps (e1, g1) ;;
  if (0 <? in_idp_totals inp)%Z then Err NameError
  else Ok (Proc (World start end_time ig d camps e2 g2) (Spawn 0 0) d e2 g2
                (if (e_rank e2 =? 0)%Z then Some camps else None) []).

(** Lines 77-83, the part of a day before [e.evolve()] *)
Definition par_morning (fuel : nat) (S : settings) (o : oracle) (inp : run_input) (day : Z) (p : proc) : res proc :=
  e1 <- add_new_conflict_zones S (in_conflict_file inp) (w_geo (p_world p)) day (p_eco p) ;;
  '(_, sp1, d1, e2, g2) <- par_spawn_daily_displaced S (in_dm inp) day (p_sp p) (p_data p) e1 (p_rng p) ;;
  e3 <- refresh_spawn_weights S e2 ;;
  e4 <- enact_border_closures fuel S day true e3 ;;
  Ok (Proc (p_world p) sp1 d1 e4 g2 (p_header p) (p_lines p)).

(** Line 84, a collective call: [st] is the state of the ecosystems after it. *)
Definition resume (p : proc) (st : eco * rng) : proc :=
  Proc (p_world p) (p_sp p) (p_data p) (fst st) (snd st) (p_header p) (p_lines p).

(** Lines 86-125: the line of output of day [day]; [e.numAgents()] is [total_agents]
    (pflee.py 706-717) and [lm[..].numAgents] the number on all processes.  Every process
    computes it, process 0 prints it (getRankN, pflee.py 426-447).  There is no number of
    IDPs: with the log level idp_totals above 0 line 65 has failed. *)
Definition par_report_day (start : string) (camps : list string) (t : Z) (sp : spawn_state) (d : dtable) (e : eco)
  : res report :=
  loc_data <- mapM (fun c => _ <- lm_index e c ;; get_field d c t true) camps ;;
  sims <- mapM (lm_numAgents e) camps ;;
  let pairs := combine sims loc_data in
  let abs_errors := map (fun p => abs_error (inject_Z (fst p)) (inject_Z (snd p))) pairs in
  date <- steps_to_date t start ;;
  let rows := map (fun p => (fst p, snd p, rel_error (inject_Z (fst p)) (inject_Z (snd p)))) pairs in
  let agents := par_num_agents e in
  if (0 <? sp_raw sp)%Z then
    Ok (Report t (show_date date) rows (sumQ abs_errors / inject_Z (sp_raw sp)) (sumZ loc_data) agents (sp_raw sp)
               (sumZ sims) (sp_debt sp) None)
  else Ok (Report t (show_date date) rows 0 0 agents 0 (sumZ sims) 0 None).

Definition par_evening (day : Z) (p : proc) : res proc :=
  let w := p_world p in
  line <- par_report_day (w_start w) (w_camps w) day (p_sp p) (p_data p) (p_eco p) ;;
  Ok (Proc w (p_sp p) (p_data p) (p_eco p) (p_rng p) (p_header p)
           (if (e_rank (p_eco p) =? 0)%Z then (p_lines p ++ [line])%list else p_lines p)).

(** One day on all processes *)
Definition ecos (ps : list proc) : list (eco * rng) := map (fun p => (p_eco p, p_rng p)) ps.
Definition par_run_day (fuel : nat) (m : pmode) (lat : latency) (S : settings) (o : oracle) (inp : run_input)
    (ps : list proc) (t : nat) : res (list proc) :=
  let day := Z.of_nat t in
  ps1 <- mapM (par_morning fuel S o inp day) ps ;;
  st <- par_evolve m lat fuel S o (ecos ps1) ;;
  mapM (fun x => par_evening day (resume (fst x) (snd x))) (combine ps1 st).

(** The whole program on as many processes as there are generators of random numbers; the
    number of days depends on the input only, so that of the first process is taken.  The
    result is what each process prints. *)
Definition run_par_script (fuel : nat) (m : pmode) (lat : latency) (S : settings) (o : oracle) (inp : run_input)
    (gs : list rng) : res (list (option (list string) * list report)) :=
  ps <- mapM (fun x => par_set_up S o inp (fst x) (snd x)) (pstart gs) ;;
  let days := match ps with [] => 0%nat | p :: _ => Z.to_nat (w_end (p_world p)) end in
  ps' <- foldM (par_run_day fuel m lat S o inp) (seq 0 days) ps ;;
  Ok (map (fun p => (p_header p, p_lines p)) ps').
