(** * SpecAgentLog: vocabulary of C78 and C79 (the file of the agent log)

    [no_clear] is in SpecHistory.v, [deactivated] in SpecAgents.v. *)

From Verif Require Import Base State Flee Api SpecAgents SpecHistory Diagnostics Coupling AgentLog.
Local Open Scope string_scope.
Local Open Scope list_scope.

(** Line [r] of the log tells the home and the attributes of agent number [ar_agent r]. *)
Definition tells (e : eco) (r : agent_row) : Prop :=
  exists a l, nth_error (e_agents e) (ar_agent r) = Some a /\ nth_error (e_locations e) (a_home_location a) = Some l /\
    ar_home r = sval (l_name l) /\ ar_attributes r = map snd (a_attributes a).

(** The days of the main lines about agent number [n], in the order of the file *)
Definition days_logged (n : nat) (rs : list agent_row) : list Z :=
  map ar_time (filter (fun r => Nat.eqb (ar_agent r) n && Z.eqb (ar_hop r) 0)%bool rs).

(** [count] days from [first] on *)
Definition days_from (first : Z) (count : nat) : list Z := map (fun k => (first + Z.of_nat k)%Z) (seq 0 count).

(** The level of the agent log is 1, or at least 3, whenever a step is made: every step
    writes lines, and extra lines have numbers. *)
Definition logged_well (h : history) : Prop :=
  Forall (fun c => is_evolve (snd c) = true -> (s_log_agent (fst c) = 1 \/ 3 <= s_log_agent (fst c))%Z) h.

(** ** The file as a table (C79) *)

(** Neither a comma nor an end of line in [s] *)
Definition one_cell (s : string) : Prop := ~ In comma (list_ascii_of_string s) /\ ~ In newline (list_ascii_of_string s).

(** The headings for attributes called [keys]; the header ends in a comma *)
Definition headings (keys : list string) : list string :=
  ["#time"; "rank-agentid"; "original_location"; "current_location"; "gps_x"; "gps_y"; "is_travelling";
   "distance_travelled"; "places_travelled"; "distance_moved_this_timestep"] ++ keys ++ [""].

(** The cells of line [r] *)
Definition cells (fl : Q -> string) (rank : nat) (r : agent_row) : list string :=
  [if (ar_hop r =? 0)%Z then str_of_Z (ar_time r) else (str_of_Z (ar_time r) ++ "-" ++ str_of_Z (ar_hop r))%string;
   (str_of_Z (Z.of_nat rank) ++ "-" ++ str_of_Z (Z.of_nat (ar_agent r)))%string; ar_home r; ar_loc r;
   fl (ar_x r); fl (ar_y r); if ar_travelling r then "True" else "False"; fl (ar_distance_travelled r);
   str_of_Z (ar_places r); fl (ar_moved r)] ++ map (val_text fl) (ar_attributes r) ++ [""].

(** A reader of tables: lines, and cells between commas *)
Definition table_of (text : string) : list (list string) := map (split comma) (split newline text).

(** The texts of line [r] fit into cells. *)
Definition fits_cells (fl : Q -> string) (r : agent_row) : Prop :=
  one_cell (ar_home r) /\ one_cell (ar_loc r) /\ Forall (fun v => one_cell (val_text fl v)) (ar_attributes r).

(** Agents whose attributes are called [keys], in this order *)
Definition all_have (keys : list string) (e : eco) : Prop := forall a, In a (e_agents e) -> map fst (a_attributes a) = keys.
