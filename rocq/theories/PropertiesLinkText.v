(** * PropertiesLinkText: C88

    The file of the link log is a table.  The vocabulary is in SpecLinkText.v ([link_file],
    [link_headings], [link_cells], [attribute_cell], [link_fits], [lines_of],
    [total_line]) and SpecAgentLog.v ([one_cell], [table_of]). *)

From Verif Require Import Base State Diagnostics Flee Api SpecAgents SpecHistory SpecTraffic Defaults ExampleRun LinkLogWitness
  Coupling AgentLog SpecAgentLog LogWitness LinkLogText SpecLinkText LinkTextProofs SumProofs LinkTextWitness.
Local Open Scope string_scope.
Local Open Scope Q_scope.
Local Open Scope list_scope.
Local Opaque run.

(** C88. A call of the writer makes the file of the lines so far the file of the lines
    now; at time 0 the file begins anew, whatever was in it. *)
Theorem C88_written : forall fl S e e' old, write_links S e = Ok e' ->
  (e_time e <> 0%Z -> old = link_file fl (e_links_out e)) ->
  write_links_text fl S e old = Ok (link_file fl (e_links_out e')).
Proof. exact link_file_written. Qed.
Print Assumptions C88_written.

Example C88_written_example : exists e', write_links lnk_S (lnk_eco 2) = Ok e' /\ e_time (lnk_eco 2) = 2%Z /\
  List.length (e_links_out (lnk_eco 2)) = 18%nat /\ List.length (e_links_out e') = 28%nat.
Proof. eexists. split; [vm_compute; reflexivity|]. vm_compute. repeat split; reflexivity. Qed.

(** A reader of tables finds the headings and the cells, if no text has a comma or a
    newline: five cells in every line. *)
Theorem C88_read : forall fl rows, Forall (link_fits fl) rows ->
  table_of (link_file fl rows) = link_headings :: map (link_cells fl) rows ++ [[""]].
Proof. exact link_file_read. Qed.
Print Assumptions C88_read.

(** In every history the lines are about days that are over. *)
Theorem C88_days : forall o e g, reachable o e g -> forall r, In r (e_links_out e) -> (0 <= lr_time r < e_time e)%Z.
Proof. exact link_days. Qed.
Print Assumptions C88_days.

(** After a step of a simulation with a link log, the lines of the file that begin with
    the day of the step and end with "total" are the open links, one line each, in the
    order of the locations and of the links of each, with the number of agents that have
    entered the link. *)
Theorem C88_totals : forall fl o fuel S e g e' g', reachable o e g -> evolve fuel S o e g = Ok (e', g') -> (0 < s_log_link S)%Z ->
  Forall (link_fits fl) (e_links_out e') ->
  Forall2 (total_line S e' (e_time e)) (flat_map l_links (e_locations e'))
    (lines_of (e_time e) "total" (table_of (link_file fl (e_links_out e')))).
Proof. exact link_day_totals. Qed.
Print Assumptions C88_totals.

Example C88_example : reachable ex_oracle (lnk_eco 1) (lnk_rng 1) /\
  rmap fst (evolve 10 lnk_S ex_oracle (lnk_eco 1) (lnk_rng 1)) = Ok (lnk_eco 2) /\ (0 < s_log_link lnk_S)%Z /\
  Forall (link_fits one_text) (e_links_out (lnk_eco 2)) /\ e_time (lnk_eco 1) = 1%Z /\
  lines_of 1 "total" (table_of (link_file one_text (e_links_out (lnk_eco 2)))) =
    [["1"; "A"; "B"; "2"; "total"]; ["1"; "B"; "A"; "0"; "total"]; ["1"; "B"; "C"; "2"; "total"]; ["1"; "C"; "B"; "0"; "total"]] /\
  lines_of 1 "gender:f" (table_of (link_file one_text (e_links_out (lnk_eco 2)))) =
    [["1"; "A"; "B"; "1"; "gender:f"]; ["1"; "B"; "C"; "1"; "gender:f"]].
Proof.
  split; [apply lnk_reachable; vm_compute; reflexivity|]. split; [vm_compute; reflexivity|]. split; [reflexivity|].
  split; [exact lnk_fits|]. split; [vm_compute; reflexivity|exact lnk_totals].
Qed.

(** The last cell of a line is "total" exactly if the line is about all agents, whatever
    the attributes are called. *)
Theorem C88_total_cell : forall fl r, attribute_cell fl r = "total" <-> lr_attribute r = None.
Proof. exact link_total_cell. Qed.
Print Assumptions C88_total_cell.

(** Among attributes without a colon in their names, and values that are all integers or
    all texts, the last cell says which attribute and which value it is about. *)
Theorem C88_attribute_cell : forall fl a v b w, no_colon a -> no_colon b -> same_sort v w ->
  (a ++ ":" ++ val_text fl v)%string = (b ++ ":" ++ val_text fl w)%string -> a = b /\ v = w.
Proof. exact link_cell_unique. Qed.
Print Assumptions C88_attribute_cell.

(** Without that there are lines about different agents that no reader can tell apart: an
    age of 30 and an age of "30". *)
Theorem C88_same_cell_refuted : exists e g r r', reachable ex_oracle e g /\ In r (e_links_out e) /\ In r' (e_links_out e) /\
  lr_attribute r = Some ("age", VInt 30) /\ lr_attribute r' = Some ("age", VStr "30") /\ link_line one_text r = link_line one_text r'.
Proof. exact ages_cells. Qed.
Print Assumptions C88_same_cell_refuted.

(** A comma in the name of a place moves the rest of the line to other columns. *)
Theorem C88_comma_refuted : exists e g, reachable ex_oracle e g /\
  table_of (link_file one_text (e_links_out e)) =
    [link_headings; ["0"; "Aweil"; " Centre"; "B"; "0"; "total"]; ["0"; "B"; "Aweil"; " Centre"; "1"; "total"]; [""]].
Proof. exact aweil_cells. Qed.
Print Assumptions C88_comma_refuted.

(** If every step is made with a link log at level 2 and every agent has the attribute [s],
    the lines about the values of [s] add up to the total, for every open link. *)
Theorem C88_values : forall o h g0 e g fuel S e' g' s, no_clear h -> counted_well h -> run o h empty_eco g0 = Ok (e, g) ->
  evolve fuel S o e g = Ok (e', g') -> (1 < s_log_link S)%Z ->
  (forall a, In a (e_agents e') -> NoDup (map fst (a_attributes a)) /\ In s (map fst (a_attributes a))) ->
  exists bs, e_links_out e' = (if (e_time e =? 0)%Z then [] else e_links_out e) ++ List.concat bs /\
    Forall2 (link_block S e' (e_time e)) (flat_map l_links (e_locations e')) bs /\ Forall (adds_up s) bs.
Proof. exact values_add_up. Qed.
Print Assumptions C88_values.

Example C88_values_example : no_clear (lnk_history 1) /\ counted_well (lnk_history 1) /\
  run ex_oracle (lnk_history 1) empty_eco ex_draws = Ok (lnk_eco 1, lnk_rng 1) /\
  rmap fst (evolve 10 lnk_S ex_oracle (lnk_eco 1) (lnk_rng 1)) = Ok (lnk_eco 2) /\ (1 < s_log_link lnk_S)%Z /\
  (forall a, In a (e_agents (lnk_eco 2)) -> NoDup (map fst (a_attributes a)) /\ In "gender" (map fst (a_attributes a))) /\
  lines_between (lnk_eco 2) 1 "B" "C" =
    [LinkRow 1 "B" "C" 2 None; LinkRow 1 "B" "C" 1 (Some ("gender", VStr "f"));
     LinkRow 1 "B" "C" 1 (Some ("gender", VStr "m")); LinkRow 1 "B" "C" 1 (Some ("age", VFloat 30))].
Proof.
  split; [apply lnk_no_clear|]. split; [apply lnk_well|]. split; [apply lnk_hist; vm_compute; reflexivity|].
  split; [vm_compute; reflexivity|]. split; [reflexivity|]. split; [exact lnk_gender|vm_compute; reflexivity].
Qed.

(** The same lines show that the values of an attribute that one agent lacks do not add up
    to the total (2 agents, one of them with an age); and with level 1 on the first day
    the agents of that day are never in the lines about their attributes. *)
Theorem C88_values_refuted : exists e g, run ex_oracle late_history empty_eco ex_draws = Ok (e, g) /\
  map lr_count (filter (fun r => match lr_attribute r with None => true | _ => false end) (lines_between e 1 "A" "B")) = [2]%Z /\
  filter (about "gender") (lines_between e 1 "A" "B") = [].
Proof. exact late_case. Qed.
Print Assumptions C88_values_refuted.
