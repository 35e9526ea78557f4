(** * PropertiesRun: C66 (the printed lines of the main program), C67 (agents and
    registered totals in a whole run), C68 (error measures)

    Vocabulary: SpecRun.v ([simulated], [line_of], [to_spawn], [highest], [rounded4],
    [sum_abs]), SpecAgents.v, SpecDates.v *)

From Coq Require Import Qabs.
From Verif Require Import Base State Flee DataTable Spawning InputGeography Dates DataFiles Analysis RunScript Api SpecAgents SpecHistory SpecTravel SpecRun
  SpecFiles AnalysisProofs RunProofs RunInputs Defaults ExampleRun NetworkWitness ZoneWitness RunWitness RunInputsWitness.
Local Open Scope string_scope.
Local Open Scope Q_scope.
Local Open Scope list_scope.
Local Opaque run run_script set_up.

(** ** C66: the program prints one line for each day, and it describes the state after
    that day: the date, for each camp the agents that are there or that were deactivated
    there, the number in the data and the relative error, the number of agents, those in
    camps, and the registered total and debt if there is a registered total. *)
Theorem C66_lines : forall fuel S o inp g camps lines, run_script fuel S o inp g = Ok (camps, lines) ->
  exists w, set_up S o inp g = Ok w /\ camps = w_camps w /\ List.length lines = Z.to_nat (w_end w) /\
  forall t r, nth_error lines t = Some r -> exists sp d e g',
    simulated fuel S o inp w (Datatypes.S t) sp d e g' /\ reachable o e g' /\ e_time e = (Z.of_nat t + 1)%Z /\
    line_of S inp w t (sp_raw sp) (sp_debt sp) e r.
Proof. exact script_lines. Qed.
Print Assumptions C66_lines.
Example C66_lines_example : exists lines, run_script 10 data_S ex_oracle run_inp ex_draws = Ok (["C"], lines) /\
  map r_date lines = ["2012-02-29"; "2012-03-01"; "2012-03-02"; "2012-03-03"; "2012-03-04"].
Proof. destruct data_case as (_ & lines & H & D & _). exists lines. auto. Qed.

(** Before the first day: a reachable ecosystem at time 0; the columns are the camps in
    the order of the locations; the number of days is the argument if positive, else that
    of the file. *)
Theorem C66_start : forall S o inp g w, set_up S o inp g = Ok w ->
  reachable o (w_eco w) (w_rng w) /\ e_time (w_eco w) = 0%Z /\
  w_camps w = map (fun l => sval (l_name l)) (filter l_camp (e_locations (w_eco w))) /\
  (exists n, read_sim_period (in_period inp) = Ok (w_start w, n) /\ w_end w = if (0 <? in_days inp)%Z then in_days inp else n).
Proof. exact set_up_start. Qed.
Print Assumptions C66_start.
Example C66_start_example : exists w, set_up data_S ex_oracle run_inp ex_draws = Ok w /\ w_camps w = ["C"] /\ w_start w = "2012-02-29" /\ w_end w = 5%Z.
Proof. destruct set_up_case as (w & H & C & St & En & _). exists w. auto. Qed.

(** The data are those of the files listed in the layout, corrected for each row of the file
    of corrections; the ecosystem is what reading the network, then the agents, then adding
    the initial refugees of each camp makes. *)
Theorem C66_inputs : forall S o inp g w, set_up S o inp g = Ok w ->
  (exists ns ts, columns (in_files inp) (w_start w) (in_factor inp) (in_layout inp) ns ts /\
     let t := DTable ns ts (if s_EmptyCampsOnDay0 S then 1 else 0)%Z [] in
     match in_corrections inp with None => w_data w = t | Some rows => days_ok t -> corrections (w_start w) rows t (w_data w) end) /\
  exists is, run o ([(S, OStoreInput (in_factor inp) (in_geo inp) (in_changes inp))] ++
                    match in_agents inp with Some rows => [(S, OReadAgents rows)] | None => [] end ++
                    map (fun i => (S, OAddInitialRefugees (in_dm inp) (w_data w) i)) is) empty_eco g = Ok (w_eco w, w_rng w) /\
    Forall2 (fun c i => exists l, nth_error (e_locations (w_eco w)) i = Some l /\ sval (l_name l) = c) (w_camps w) is.
Proof. exact script_inputs. Qed.
Print Assumptions C66_inputs.
Example C66_inputs_example :
  (exists t, new_table run_files [["total"; "total.csv"]; ["C"; "c.csv"]] "2012-02-29" 10 (s_EmptyCampsOnDay0 data_S) = Ok t /\ days_ok t /\
     map (map (fun r => Qred (snd r))) (d_tables t) = [[5; 13; 9; 19]; [3; 7; 10]]) /\
  exists w, set_up data_S ex_oracle corr_inp ex_draws = Ok w /\ in_corrections corr_inp = Some [["C"; "2012-03-04"]] /\ w_camps w = ["C"] /\
    map (map (fun r => Qred (snd r))) (d_tables (w_data w)) = [[5; 13; 9; 19]; [7; 7; 10]] /\ map l_numAgents (e_locations (w_eco w)) = [0; 0; 7]%Z.
Proof. split; [exact corr_table|exact corr_set_up]. Qed.

(** Camps of different names: agents in camps are some of the agents. *)
Theorem C66_camps : forall fuel S o inp g camps lines, run_script fuel S o inp g = Ok (camps, lines) -> NoDup camps ->
  forall r, In r lines -> (0 <= r_in_camps r <= r_total r)%Z.
Proof. exact script_camps. Qed.
Print Assumptions C66_camps.
Example C66_camps_example : exists lines, run_script 10 data_S ex_oracle run_inp ex_draws = Ok (["C"], lines) /\ NoDup ["C"] /\
  map r_in_camps lines = [3; 4; 7; 7; 7]%Z /\ map r_total lines = [3; 7; 11; 11; 11]%Z.
Proof.
  destruct data_case as (_ & lines & H & _ & T & _ & _ & C & _). exists lines. split; [exact H|]. split; [|auto].
  repeat constructor. intros [].
Qed.

(** ** C67: when new agents come from the registered totals, then on each line the agents
    are those before the first day plus what was to be spawned plus the debt, and this is
    the highest number that was to be spawned on any day so far. *)
Theorem C67_balance : forall fuel S o inp g camps lines, run_script fuel S o inp g = Ok (camps, lines) -> rng_ok g -> from_data S ->
  exists w, set_up S o inp g = Ok w /\ forall t r, nth_error lines t = Some r ->
  exists first d1 z debt, get_daily_difference (w_data w) 0 true (s_sum_from_camps S) = Ok (first, d1) /\
    to_spawn S (w_data w) (Z.of_nat t) z /\ (0 <= debt)%Z /\
    r_total r = (Z.of_nat (List.length (e_agents (w_eco w))) + z + debt)%Z /\
    highest S (w_data w) (Z.of_nat t) (r_total r - Z.of_nat (List.length (e_agents (w_eco w)))) /\
    r_raw r = Z.max 0 (z + if s_InsertDayZero S then first else 0) /\ ((0 < r_raw r)%Z -> r_debt r = debt).
Proof. exact script_balance. Qed.
Print Assumptions C67_balance.
Example C67_balance_example : rng_ok ex_draws /\ from_data data_S /\ exists lines,
  run_script 10 data_S ex_oracle run_inp ex_draws = Ok (["C"], lines) /\
  map r_total lines = [3; 7; 11; 11; 11]%Z /\ map r_debt lines = [0; 0; 0; 2; 4]%Z.
Proof. split; [exact ex_draws_ok|]. destruct data_case as (F & lines & H & _ & T & _ & D & _). split; [exact F|]. exists lines. auto. Qed.

(** Totals from the column "total": the registered number on the line is that of the day,
    with empty camps on day 0 what has been added since. *)
Theorem C67_registered : forall fuel S o inp g camps lines, run_script fuel S o inp g = Ok (camps, lines) -> rng_ok g -> from_data S ->
  s_sum_from_camps S = false ->
  exists w, set_up S o inp g = Ok w /\ forall t r, nth_error lines t = Some r ->
  exists v v0, get_field (w_data w) "total" (Z.of_nat t) true = Ok v /\ get_field (w_data w) "total" 0 true = Ok v0 /\
    r_raw r = Z.max 0 (if s_EmptyCampsOnDay0 S then v - v0 else v).
Proof. exact script_raw. Qed.
Print Assumptions C67_registered.
Example C67_registered_example : rng_ok ex_draws /\ from_data data_S /\ s_sum_from_camps data_S = false /\ exists lines,
  run_script 10 data_S ex_oracle run_inp ex_draws = Ok (["C"], lines) /\ map r_raw lines = [5; 9; 13; 11; 9]%Z.
Proof.
  split; [exact ex_draws_ok|]. destruct data_case as (F & lines & H & _ & _ & R & _). split; [exact F|]. split; [reflexivity|]. exists lines. auto.
Qed.

(** With spawning driven by conflicts or floods the last columns say nothing: total error,
    registered people and debt are printed as 0. *)
Theorem C67_driven : forall fuel S o inp g camps lines, run_script fuel S o inp g = Ok (camps, lines) -> ~ from_data S ->
  forall r, In r lines -> r_raw r = 0%Z /\ r_debt r = 0%Z /\ r_data r = 0%Z /\ r_error r = 0.
Proof. exact script_driven. Qed.
Print Assumptions C67_driven.
Example C67_driven_example : ~ from_data conflict_S /\ exists lines, run_script 10 conflict_S ex_oracle run_inp ex_draws = Ok (["C"], lines) /\
  map r_total lines = [5; 7; 9; 11; 13]%Z /\ map r_error lines = [0; 0; 0; 0; 0] /\
  exists r sim data err, nth_error lines 2 = Some r /\ r_camps r = [(sim, data, err)] /\ sim <> data /\ ~ err == 0.
Proof. exact conflict_case. Qed.

(** Before the first day each camp holds the people registered on day 0 (if these are to
    be inserted) and its initial IDPs; the other places are empty. *)
Theorem C67_start : forall S o inp g w, set_up S o inp g = Ok w -> rng_ok g -> in_agents inp = None ->
  NoDup (map (fun l => sval (l_name l)) (e_locations (w_eco w))) ->
  forall i l, nth_error (e_locations (w_eco w)) i = Some l ->
  (s_EmptyCampsOnDay0 S = true \/ l_camp l = false -> l_numAgents l = 0%Z) /\
  (s_EmptyCampsOnDay0 S = false -> l_camp l = true -> exists at_ n0 n1, nth_error (e_dicts (w_eco w)) (l_attributes l) = Some at_ /\
     (if s_InsertDayZero S then get_field (w_data w) (sval (l_name l)) 0 true = Ok n0 else n0 = 0%Z) /\
     py_int (dict_get_default "initial_idps" at_ (VInt 0)) = Ok n1 /\ l_numAgents l = Z.max 0 (n0 + n1)).
Proof. exact set_up_counts. Qed.
Print Assumptions C67_start.
Example C67_start_example : rng_ok ex_draws /\ in_agents run_inp = None /\ exists w, set_up data_S ex_oracle run_inp ex_draws = Ok w /\
  NoDup (map (fun l => sval (l_name l)) (e_locations (w_eco w))) /\ map l_numAgents (e_locations (w_eco w)) = [0; 0; 3]%Z.
Proof.
  split; [exact ex_draws_ok|]. split; [reflexivity|]. destruct set_up_case as (w & H & _ & _ & _ & N & E). exists w.
  split; [exact H|]. split; [rewrite E; exact nodup_ABC|exact N].
Qed.

(** ** C68: the relative error is |value - correct| / correct to four digits, and 0 if
    there is nothing to compare with. *)
Theorem C68_relative : forall val correct,
  (1 # 100000 <= correct -> rounded4 (Qabs ((val - correct) / correct)) (rel_error val correct)) /\
  (correct < 1 # 100000 -> rel_error val correct = 0).
Proof. exact rel_spec. Qed.
Print Assumptions C68_relative.
Example C68_relative_example : 1 # 100000 <= 30 /\ rel_error 40 30 == 3333 # 10000 /\ -5 < 1 # 100000 /\ rel_error 40 (-5) = 0.
Proof. repeat split. discriminate. Qed.

(** It is 0 only for values within 1/20000 of the correct one. *)
Theorem C68_zero : forall val correct, 1 # 100000 <= correct ->
  (rel_error val correct == 0 <-> Qabs (val - correct) <= correct * (1 # 20000)).
Proof. exact rel_zero. Qed.
Print Assumptions C68_zero.
Example C68_zero_example : rel_error 40002 40000 == 0 /\ ~ rel_error 40003 40000 == 0.
Proof. split; [reflexivity|discriminate]. Qed.

(** The absolute error is the distance to four digits, and exact for whole numbers. *)
Theorem C68_absolute : forall val correct, rounded4 (Qabs (val - correct)) (abs_error val correct).
Proof. exact abs_rounded. Qed.
Print Assumptions C68_absolute.
Theorem C68_absolute_whole : forall v c : Z, abs_error (inject_Z v) (inject_Z c) == inject_Z (Z.abs (v - c)).
Proof. exact abs_int. Qed.
Print Assumptions C68_absolute_whole.
Example C68_absolute_example : abs_error (1 # 3) 1 == 6667 # 10000 /\ abs_error 3 10 == 7.
Proof. split; reflexivity. Qed.

(** For series: one rounded distance for each pair; an error if the lengths differ *)
Theorem C68_arrays : forall f c, List.length f = List.length c -> exists ds, abs_diffs f c = Ok ds /\ List.length ds = List.length f /\
  forall i x y, nth_error f i = Some x -> nth_error c i = Some y -> exists d, nth_error ds i = Some d /\ rounded4 (Qabs (x - y)) d.
Proof. exact diffs_ok. Qed.
Print Assumptions C68_arrays.
Theorem C68_arrays_differ : forall f c, (1 < List.length f)%nat -> (1 < List.length c)%nat -> List.length f <> List.length c ->
  abs_diffs f c = Err ValueError.
Proof. exact diffs_fail. Qed.
Print Assumptions C68_arrays_differ.
Example C68_arrays_example : (exists a b, abs_diffs [1; 5] [4; 3 # 2] = Ok [a; b] /\ a == 3 /\ b == 7 # 2) /\ abs_diffs [1; 2] [1; 2; 3] = Err ValueError.
Proof. split; [|reflexivity]. do 2 eexists. split; [reflexivity|]. split; reflexivity. Qed.

(** The mean of the distances, to four digits *)
Theorem C68_mean : forall f c, List.length f = List.length c -> f <> [] -> exists m, mean_abs_diffs f c = Ok m /\
  rounded4 (sum_abs f c / inject_Z (Z.of_nat (List.length f))) m.
Proof. exact mean_ok. Qed.
Print Assumptions C68_mean.
Example C68_mean_example : exists m, mean_abs_diffs [1; 5; 0] [4; 3; 2] = Ok m /\ m == 23333 # 10000.
Proof. eexists. split; [reflexivity|reflexivity]. Qed.

(** The mean absolute scaled error: the mean distance of the forecast from the actual
    values over all days, divided by that of the naive forecast over the days after the
    first day of the forecast; defined if the naive forecast is wrong on one of these days. *)
Theorem C68_mase : forall forecast actual naive start r, List.length forecast = List.length actual -> List.length naive = List.length actual ->
  calculate_mase forecast actual naive (Z.of_nat start) = Ok r ->
  let late_actual := skipn (start + 1) actual in let late_naive := skipn (start + 1) naive in
  late_actual <> [] /\ (exists i x y, nth_error late_actual i = Some x /\ nth_error late_naive i = Some y /\ ~ x == y) /\
  rounded4 ((sum_abs forecast actual / inject_Z (Z.of_nat (List.length actual))) /
            (sum_abs late_naive late_actual / inject_Z (Z.of_nat (List.length late_actual)))) r.
Proof. exact mase_iff. Qed.
Print Assumptions C68_mase.
Theorem C68_mase_defined : forall forecast actual naive start, List.length forecast = List.length actual -> List.length naive = List.length actual ->
  (exists i x y, nth_error (skipn (start + 1) actual) i = Some x /\ nth_error (skipn (start + 1) naive) i = Some y /\ ~ x == y) ->
  exists r, calculate_mase forecast actual naive (Z.of_nat start) = Ok r.
Proof. exact mase_defined. Qed.
Print Assumptions C68_mase_defined.
Example C68_mase_example : calculate_mase [3; 5; 8] [2; 5; 9] [2; 3; 5] 0 = Ok (2222 # 10000).
Proof. exact mase_case. Qed.

(** The periods differ, so the naive forecast itself need not get the error 1. *)
Theorem C68_mase_naive_refuted : ~ (forall actual naive start r, List.length naive = List.length actual ->
  calculate_mase naive actual naive (Z.of_nat start) = Ok r -> rounded4 1 r).
Proof. exact mase_naive_false. Qed.
Print Assumptions C68_mase_naive_refuted.
