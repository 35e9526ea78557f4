(** * PropertiesRunPar: C70 (the printed lines of the main program on several processes),
    C71 (people and registered totals in such a run), C72 (the same columns on any number
    of processes, and in the serial program)

    Vocabulary: SpecRunPar.v ([started], [par_simulated], [par_line_of]), SpecRun.v
    ([from_data], [to_spawn], [highest]), SpecParallel.v ([people], [people_in]) *)

From Verif Require Import Base State Flee DataTable Spawning InputGeography Dates DataFiles Analysis RunScript Api Pflee ParApi RunPar
  SpecAgents SpecHistory SpecTravel SpecParallel SpecRun SpecRunPar SpecFiles RunParLines RunInputs
  Defaults ExampleRun NetworkWitness RunWitness RunParWitness RunInputsWitness.
Local Open Scope string_scope.
Local Open Scope Q_scope.
Local Open Scope list_scope.
Local Opaque run run_script set_up run_par_script par_set_up prun.

(** ** C70: only process 0 prints: the camps, then one line for each day.  The line
    describes the state of all processes after that day: the date, for each camp the people
    who are there on any process, the number in the data and the relative error, the number
    of people (if no closures are given), those in camps, and the registered total and debt
    if there is a registered total. *)
Theorem C70_lines : forall fuel m lat S o inp gs outs, run_par_script fuel m lat S o inp gs = Ok outs -> gs <> [] -> from_data S ->
  exists w st0 lines, started S o inp gs w st0 /\ outs = (Some (w_camps w), lines) :: repeat (None, []) (List.length gs - 1) /\
    List.length lines = Z.to_nat (w_end w) /\
    forall t r, nth_error lines t = Some r -> exists sp d st, par_simulated fuel m lat S o inp w st0 (Datatypes.S t) sp d st /\
      par_line_of S inp w t (sp_raw sp) (sp_debt sp) st r.
Proof. exact par_script_lines. Qed.
Print Assumptions C70_lines.
Example C70_lines_example : rp_draws <> [] /\ from_data rp_S /\ exists lines,
  run_par_script 10 Classic HighLatency rp_S ex_oracle rp_inp rp_draws = Ok [(Some ["C"], lines); (None, [])] /\
  map r_date lines = ["2012-02-29"; "2012-03-01"; "2012-03-02"; "2012-03-03"; "2012-03-04"] /\ map r_in_camps lines = [4; 4; 5; 6; 6]%Z.
Proof. split; [discriminate|]. split; [apply rp_from_data|]. destruct rp_two as (lines & H & D & _ & _ & _ & C & _). exists lines. auto. Qed.

(** Before the first day: one ecosystem for each process; the columns are the camps of each
    of them in the order of the locations; the number of days is the argument if positive,
    else that of the file. *)
Theorem C70_start : forall S o inp gs w st, started S o inp gs w st -> gs <> [] ->
  List.length st = List.length gs /\
  (forall e g, In (e, g) st -> w_camps w = map (fun l => sval (l_name l)) (filter l_camp (e_locations e))) /\
  (exists n, read_sim_period (in_period inp) = Ok (w_start w, n) /\ w_end w = if (0 <? in_days inp)%Z then in_days inp else n).
Proof. exact par_started_camps. Qed.
Print Assumptions C70_start.
Example C70_start_example : rp_draws <> [] /\ exists w st, started rp_S ex_oracle rp_inp rp_draws w st /\
  w_camps w = ["C"] /\ w_start w = "2012-02-29" /\ w_end w = 5%Z /\ List.length st = 2%nat.
Proof. split; [discriminate|exact rp_started]. Qed.

(** The data are those of the files listed in the layout, corrected for each row of the file
    of corrections. *)
Theorem C70_inputs : forall S o inp gs w st, started S o inp gs w st -> gs <> [] ->
  exists ns ts, columns (in_files inp) (w_start w) (in_factor inp) (in_layout inp) ns ts /\
    let t := DTable ns ts (if s_EmptyCampsOnDay0 S then 1 else 0)%Z [] in
    match in_corrections inp with None => w_data w = t | Some rows => days_ok t -> corrections (w_start w) rows t (w_data w) end.
Proof. exact par_inputs. Qed.
Print Assumptions C70_inputs.
Example C70_inputs_example : rp_draws <> [] /\ in_corrections corr_inp = Some [["C"; "2012-03-04"]] /\
  exists w st, started rp_S ex_oracle corr_inp rp_draws w st /\ w_start w = "2012-02-29" /\
  map (map (fun r => Qred (snd r))) (d_tables (w_data w)) = [[5; 13; 9; 19]; [7; 7; 10]].
Proof. split; [discriminate|]. split; [reflexivity|exact corr_started]. Qed.

(** With the log level idp_totals the program never comes to the first day. *)
Theorem C70_idp_totals : forall fuel m lat S o inp gs outs, (0 < in_idp_totals inp)%Z -> gs <> [] ->
  run_par_script fuel m lat S o inp gs <> Ok outs.
Proof. exact par_script_idps. Qed.
Print Assumptions C70_idp_totals.
Example C70_idp_totals_example : (0 < in_idp_totals rp_idps)%Z /\ rp_draws <> [] /\
  run_par_script 10 Classic HighLatency rp_S ex_oracle rp_idps rp_draws = Err NameError /\
  is_ok (run_script 10 rp_S ex_oracle rp_idps ex_draws) = true.
Proof. split; [reflexivity|]. split; [discriminate|exact rp_idps_fail]. Qed.

(** ** C71: when new agents come from the registered totals, then on each line the people on
    all processes together are those before the first day plus what was to be spawned plus
    the debt, and this is the highest number that was to be spawned on any day so far. *)
Theorem C71_balance : forall fuel m lat S o inp gs outs, run_par_script fuel m lat S o inp gs = Ok outs -> gs <> [] -> from_data S ->
  exists w st0 lines, started S o inp gs w st0 /\ nth_error outs 0 = Some (Some (w_camps w), lines) /\
    forall t r, nth_error lines t = Some r ->
    exists sp d st first d1 z debt, par_simulated fuel m lat S o inp w st0 (Datatypes.S t) sp d st /\
      get_daily_difference (w_data w) 0 true (s_sum_from_camps S) = Ok (first, d1) /\
      to_spawn S (w_data w) (Z.of_nat t) z /\ (0 <= debt)%Z /\
      people st = (people st0 + z + debt)%Z /\ highest S (w_data w) (Z.of_nat t) (people st - people st0) /\
      r_raw r = Z.max 0 (z + if s_InsertDayZero S then first else 0) /\ ((0 < r_raw r)%Z -> r_debt r = debt).
Proof. exact par_script_balance. Qed.
Print Assumptions C71_balance.
Example C71_balance_example : rp_draws <> [] /\ from_data rp_S /\ exists lines,
  run_par_script 10 Classic HighLatency rp_S ex_oracle rp_inp rp_draws = Ok [(Some ["C"], lines); (None, [])] /\
  map r_total lines = [6; 10; 14; 14; 14]%Z /\ map r_raw lines = [5; 9; 13; 11; 9]%Z /\ map r_debt lines = [0; 0; 0; 2; 4]%Z.
Proof. split; [discriminate|]. split; [apply rp_from_data|]. destruct rp_two as (lines & H & _ & T & R & D & _). exists lines. auto. Qed.

(** ** C72: two runs of the parallel program on the same input, on any numbers of processes,
    in any modes and with any random numbers, print the same camps and the same number of
    lines, and on each line the same day, date, numbers from the data, registered total and
    debt, and without closures the same number of agents. *)
Theorem C72_processes : forall f m lat f' m' lat' S o inp gs gs' outs outs',
  run_par_script f m lat S o inp gs = Ok outs -> run_par_script f' m' lat' S o inp gs' = Ok outs' -> gs <> [] -> gs' <> [] -> from_data S ->
  exists camps lines lines', nth_error outs 0 = Some (Some camps, lines) /\ nth_error outs' 0 = Some (Some camps, lines') /\ List.length lines = List.length lines' /\
  forall t r r', nth_error lines t = Some r -> nth_error lines' t = Some r' ->
    r_day r = r_day r' /\ r_date r = r_date r' /\ map (fun x => snd (fst x)) (r_camps r) = map (fun x => snd (fst x)) (r_camps r') /\
    r_data r = r_data r' /\ r_raw r = r_raw r' /\ r_debt r = r_debt r' /\
    (ig_closures (in_geo inp) = Some [] -> r_total r = r_total r').
Proof. exact two_par_scripts. Qed.
Print Assumptions C72_processes.
Example C72_processes_example : rp_draws <> [] /\ rp_more_draws <> [] /\ from_data rp_S /\ ig_closures (in_geo rp_inp) = Some [] /\
  exists lines lines', run_par_script 10 Classic HighLatency rp_S ex_oracle rp_inp rp_draws = Ok [(Some ["C"], lines); (None, [])] /\
    run_par_script 10 Classic LowLatency rp_S ex_oracle rp_inp rp_more_draws = Ok [(Some ["C"], lines'); (None, []); (None, [])] /\
    map r_in_camps lines = [4; 4; 5; 6; 6]%Z /\ map r_in_camps lines' = [5; 5; 6; 6; 6]%Z.
Proof.
  split; [discriminate|]. split; [discriminate|]. split; [apply rp_from_data|]. split; [apply rp_from_data|].
  destruct rp_two as (lines & H & _ & _ & _ & _ & C & _). destruct rp_three as (lines' & H' & _ & C'). exists lines, lines'. auto.
Qed.

(** The serial program and the parallel one, if the default move chance is at least 0.005 *)
Theorem C72_serial : forall f f' m lat S o inp g gs camps lines outs,
  run_script f S o inp g = Ok (camps, lines) -> run_par_script f' m lat S o inp gs = Ok outs -> gs <> [] -> from_data S -> 5 # 1000 <= s_DefaultMoveChance S ->
  exists lines', nth_error outs 0 = Some (Some camps, lines') /\ List.length lines = List.length lines' /\
  forall t r r', nth_error lines t = Some r -> nth_error lines' t = Some r' ->
    r_day r = r_day r' /\ r_date r = r_date r' /\ map (fun x => snd (fst x)) (r_camps r) = map (fun x => snd (fst x)) (r_camps r') /\
    r_data r = r_data r' /\ r_raw r = r_raw r' /\ r_debt r = r_debt r' /\
    (ig_closures (in_geo inp) = Some [] -> r_total r = r_total r').
Proof. exact serial_par_scripts. Qed.
Print Assumptions C72_serial.
Example C72_serial_example : rp_draws <> [] /\ from_data rp_S /\ 5 # 1000 <= s_DefaultMoveChance rp_S /\ ig_closures (in_geo rp_inp) = Some [] /\
  exists lines lines', run_script 10 rp_S ex_oracle rp_inp ex_draws = Ok (["C"], lines) /\
    run_par_script 10 Classic HighLatency rp_S ex_oracle rp_inp rp_draws = Ok [(Some ["C"], lines'); (None, [])] /\
    map r_total lines = [6; 10; 14; 14; 14]%Z /\ map r_in_camps lines = [4; 6; 6; 6; 6]%Z /\ map r_in_camps lines' = [4; 4; 5; 6; 6]%Z.
Proof.
  split; [discriminate|]. split; [apply rp_from_data|]. split; [apply rp_from_data|]. split; [apply rp_from_data|].
  destruct rp_serial as (lines & H & T & C). destruct rp_two as (lines' & H' & _ & _ & _ & _ & C' & _). exists lines, lines'. auto 6.
Qed.

(** With a smaller default move chance they can print different camps: a location of a type
    the code does not know is a camp in the parallel program only, even on one process, and
    then it also receives agents before the first day. *)
Theorem C72_village_refuted : exists S o inp g lines lines', from_data S /\ ig_closures (in_geo inp) = Some [] /\
  run_script 10 S o inp g = Ok (["C"], lines) /\
  run_par_script 10 Classic HighLatency S o inp [g] = Ok [(Some ["C"; "D"], lines')] /\
  map r_total lines = [6; 10; 14; 14; 14]%Z /\ map r_total lines' = [9; 13; 17; 17; 17]%Z.
Proof. exists village_S, ex_oracle, village_inp, ex_draws. exact village_case. Qed.
Print Assumptions C72_village_refuted.

(** With a border closed while agents are on the road, the parallel program prints a number
    of agents that misses them. *)
Theorem C72_closures_refuted : exists S o inp g lines lines', from_data S /\ 5 # 1000 <= s_DefaultMoveChance S /\
  run_script 10 S o inp g = Ok (["C"], lines) /\
  run_par_script 10 Classic HighLatency S o inp [g; g] = Ok [(Some ["C"], lines'); (None, [])] /\
  map r_total lines = [6; 10; 14; 14; 14]%Z /\ map r_total lines' = [6; 8; 14; 14; 14]%Z.
Proof. exists rp_S, ex_oracle, border_inp, (rng_const (7 # 8)). exact border_case. Qed.
Print Assumptions C72_closures_refuted.
