(** * PropertiesAgentLog: C78 and C79, the file agents.out

    Vocabulary: SpecAgentLog.v; [no_clear] is in SpecHistory.v, [deactivated] in
    SpecAgents.v, [simulated] in SpecRun.v.  Examples: LogWitness.v. *)

From Verif Require Import Base State Moving Crawling Flee DataTable Spawning InputGeography Dates DataFiles RunScript Api SpecAgents SpecHistory
  SpecRun Defaults ExampleRun Diagnostics Coupling AgentLog SpecAgentLog LogFrame LogHistory LogTextProofs LogRun LogWitness.
Local Open Scope string_scope.
Local Open Scope list_scope.
Local Opaque run set_up.

(** ** C78: who and when the lines are about *)

(** As long as nobody is cleared away, every line ever written tells the home and the
    attributes of the agent that has its number now. *)
Theorem C78_tells : forall o h g0 e g, no_clear h -> run o h empty_eco g0 = Ok (e, g) ->
  forall r, In r (e_agents_out e) -> (0 <= ar_time r < e_time e)%Z /\ tells e r.
Proof. exact log_tells. Qed.
Print Assumptions C78_tells.

(** The main lines about an agent are one for each day of its life, in order, without a
    gap, up to today unless it was deactivated. *)
Theorem C78_days : forall o h g0 e g, no_clear h -> logged_well h -> run o h empty_eco g0 = Ok (e, g) ->
  forall n a, nth_error (e_agents e) n = Some a ->
  exists first, (0 <= first)%Z /\ (0 <= a_timesteps_since_departure a)%Z /\
    days_logged n (e_agents_out e) = days_from first (Z.to_nat (a_timesteps_since_departure a)) /\
    (first + a_timesteps_since_departure a <= e_time e)%Z /\ (deactivated a = false -> (first + a_timesteps_since_departure a)%Z = e_time e).
Proof. exact log_days. Qed.
Print Assumptions C78_days.

Example C78_example : no_clear log_history /\ logged_well log_history /\
  run ex_oracle log_history empty_eco ex_draws = Ok (logged, logged_rng) /\
  days_logged 0 (e_agents_out logged) = [0; 1; 2]%Z /\ days_logged 3 (e_agents_out logged) = [1; 2]%Z /\
  existsb (fun r => negb (ar_hop r =? 0)%Z) (e_agents_out logged) = true.
Proof. exact (conj log_no_clear (conj log_well (conj logged_ok (conj (proj1 logged_days) (conj (proj2 logged_days) logged_extra))))). Qed.

(** No call but evolve writes to the log. *)
Theorem C78_only_evolve : forall o S c e g e' g', is_evolve c = false -> step o S c e g = Ok (e', g') ->
  e_agents_out e' = e_agents_out e.
Proof. exact (fun o S c e g e' g' N H => proj1 (step_logs o S c e g e' g' N H)). Qed.
Print Assumptions C78_only_evolve.

(** After clearLocationsFromAgents numbers are given again: a line of the log is about
    another agent than the one of its number. *)
Theorem C78_clear_refuted : ~ (forall o h g0 e g, run o h empty_eco g0 = Ok (e, g) ->
  forall r, In r (e_agents_out e) -> (ar_agent r < List.length (e_agents e))%nat -> tells e r).
Proof. exact clear_refutes. Qed.
Print Assumptions C78_clear_refuted.

(** ** C79: the file is a table *)

(** A call of the writer makes the file of the lines so far the file of the lines now.  At
    time 0 the file begins anew, with the names of the attributes of the first agent. *)
Theorem C79_written : forall fl rank S e e' old d, write_agents S e = Ok e' ->
  (e_time e <> 0%Z -> old = printed (log_header d :: map (log_line fl rank) (e_agents_out e))) ->
  exists d', write_agents_text fl rank S e old = Ok (printed (log_header d' :: map (log_line fl rank) (e_agents_out e'))) /\
    if (e_time e =? 0)%Z then option_map a_attributes (nth_error (e_agents e) 0) = Some d' else d' = d.
Proof. exact file_written. Qed.
Print Assumptions C79_written.

(** A reader of tables finds the headings and the cells, if no text has a comma or a
    newline. *)
Theorem C79_read : forall fl rank d rows, (forall q, one_cell (fl q)) -> Forall one_cell (map fst d) -> Forall (fits_cells fl) rows ->
  table_of (printed (log_header d :: map (log_line fl rank) rows)) = headings (map fst d) :: map (cells fl rank) rows ++ [[""]].
Proof. exact file_read. Qed.
Print Assumptions C79_read.

Example C79_read_example : (forall q, one_cell (one_text q)) /\ Forall one_cell (map fst [("age", VInt 10); ("work", VStr "farm")]) /\
  Forall (fits_cells one_text) (e_agents_out logged) /\ (5 < List.length (e_agents_out logged))%nat.
Proof. exact read_case. Qed.

(** With agents that have attributes of the same names, what stands under the name of an
    attribute is the attribute of the agent. *)
Theorem C79_columns : forall fl rank o h g0 e g keys, no_clear h -> run o h empty_eco g0 = Ok (e, g) -> all_have keys e ->
  forall r, In r (e_agents_out e) -> exists a, nth_error (e_agents e) (ar_agent r) = Some a /\
    List.length (cells fl rank r) = List.length (headings keys) /\
    forall j k v, nth_error (a_attributes a) j = Some (k, v) ->
      nth_error (headings keys) (10 + j) = Some k /\ nth_error (cells fl rank r) (10 + j) = Some (val_text fl v).
Proof. exact under_heading. Qed.
Print Assumptions C79_columns.

(** In the main program without agents.csv the agents have the attributes of the
    demographics, and the log shows them in their columns. *)
Theorem C79_main_program : forall fl rank fuel S o inp g0 w, set_up S o inp g0 = Ok w -> in_agents inp = None ->
  forall t sp d e g, simulated fuel S o inp w t sp d e g ->
  forall r, In r (e_agents_out e) -> exists a, nth_error (e_agents e) (ar_agent r) = Some a /\ map fst (a_attributes a) = map fst (in_dm inp) /\
    List.length (cells fl rank r) = List.length (headings (map fst (in_dm inp))) /\
    forall j k v, nth_error (a_attributes a) j = Some (k, v) ->
      nth_error (headings (map fst (in_dm inp))) (10 + j) = Some k /\ nth_error (cells fl rank r) (10 + j) = Some (val_text fl v).
Proof. exact run_table. Qed.
Print Assumptions C79_main_program.

Example C79_main_program_example : exists w sp d e g, set_up data_log_S ex_oracle (log_inp None ages) ex_draws = Ok w /\ in_agents (log_inp None ages) = None /\
  simulated 10 data_log_S ex_oracle (log_inp None ages) w 1 sp d e g /\ List.length (e_agents_out e) = 3%nat.
Proof. exact ages_run. Qed.

(** With agents.csv beside the demographics a value stands under the name of an attribute
    its agent does not have, and lines are longer than the heading. *)
Theorem C79_agents_csv_refuted : exists S inp w sp d e g a0 a r, set_up S ex_oracle inp ex_draws = Ok w /\
  simulated 10 S ex_oracle inp w 1 sp d e g /\
  nth_error (e_agents e) 0 = Some a0 /\ nth_error (e_agents e) 1 = Some a /\ In r (e_agents_out e) /\ nth_error (e_agents_out e) 1 = Some r /\
  nth_error (headings (map fst (a_attributes a0))) 10 = Some "animals" /\ ~ In "animals" (map fst (a_attributes a)) /\
  nth_error (cells one_text 0 r) 10 = Some "10" /\ List.length (cells one_text 0 r) <> List.length (headings (map fst (a_attributes a0))).
Proof. exact (ex_intro _ data_log_S (ex_intro _ (log_inp herder ages) herder_run)). Qed.
Print Assumptions C79_agents_csv_refuted.

(** A comma in the name of a place moves the rest of the line to other columns. *)
Theorem C79_comma_refuted : exists h e g, no_clear h /\ run ex_oracle h empty_eco ex_draws = Ok (e, g) /\ all_have [] e /\
  map (fun r => split comma (log_line one_text 0 r)) (e_agents_out e) =
  [["0"; "0-0"; "Aweil"; " Centre"; "Aweil"; " Centre"; "1.0"; "1.0"; "False"; "1.0"; "1"; "1.0"; ""]].
Proof. exact comma_case. Qed.
Print Assumptions C79_comma_refuted.
