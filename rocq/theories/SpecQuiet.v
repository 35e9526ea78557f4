(** * SpecQuiet: a simulation without its logs

    Vocabulary for C80.  The log levels of simsetting.yml decide which records a
    simulation keeps of itself. *)

From Verif Require Import Base State Api.

(** Settings [S] with other log levels *)
Definition logging (agent link camp : Z) (S : settings) : settings :=
  up_s_log_agent (fun _ => agent) (up_s_log_link (fun _ => link) (up_s_log_camp (fun _ => camp) S)).
Definition quiet_settings (S : settings) : settings := logging 0 0 0 S.

(** [S'] agrees with [S] on everything but the log levels *)
Definition same_but_logging (S S' : settings) : Prop :=
  exists agent link camp, S' = logging agent link camp S.

(** The same calls, with other log levels *)
Definition same_calls (h h' : history) : Prop :=
  Forall2 (fun c c' => same_but_logging (fst c) (fst c') /\ snd c' = snd c) h h'.

(** The calls [h] with the given log levels throughout, and without logs *)
Definition logged_history (agent link camp : Z) (h : history) : history :=
  map (fun c => (logging agent link camp (fst c), snd c)) h.
Definition quiet_history (h : history) : history :=
  map (fun c => (quiet_settings (fst c), snd c)) h.

(** What the log levels record: of a location the lengths of the journeys that ended
    there today, of a road the people that entered it by attribute, of a person the
    length of the journey and the roads taken today; and the statistics and log files.
    Everything else is the world. *)
Definition location_without (l : location) : location :=
  up_l_incoming_journey_lengths (fun _ => []) l.
Definition road_without (k : link) : link := up_k_cumByAttribute (fun _ => []) k.
Definition person_without (a : agent) : agent :=
  up_a_distance_travelled (fun _ => 0%Q) (up_a_locations_visited (fun _ => []) a).
Definition without_logs (e : eco) : eco :=
  up_e_locations (map location_without) (up_e_links (map road_without)
    (up_e_agents (map person_without)
      (up_e_num_arrivals (fun _ => []) (up_e_travel_durations (fun _ => [])
        (up_e_agents_out (fun _ => []) (up_e_links_out (fun _ => []) e)))))).

(** When a day of a simulation can be logged: the agent log has no lines by region and,
    at time 0, needs somebody to take the names of the attributes from; the counts by
    attribute of the road log need attribute values that can be counted. *)
Definition countable (d : dict) : Prop := forall k l, ~ In (k, VList l) d.
Record loggable (S : settings) (e : eco) : Prop := {
  lg_place : (0 < s_log_agent S)%Z -> s_granularity S <> "region"%string;
  lg_people : (0 < s_log_agent S)%Z -> e_time e = 0%Z -> e_agents e <> [];
  lg_values : (1 < s_log_link S)%Z -> forall a, In a (e_agents e) -> countable (a_attributes a) }.
