(** * SpecSerial: a parallel program on one process, and the serial program it stands for *)

From Verif Require Import Base State Flee Api Pflee ParApi.
Local Open Scope list_scope.

(** The serial calls for one call of a parallel program with one process.  addLocation of
    the parallel version replaces a negative move chance by the default; updateNumAgents
    has no serial counterpart. *)
Definition serial_calls (S : settings) (c : pop) : list op :=
  match c with
  | PEach c => [c]
  | PAddLocation n r x y lt mc cap pop f c a =>
      [OAddLocation n r x y lt (if Qltb mc 0 then s_DefaultMoveChance S else mc) cap pop f c a]
  | PAddAgent [(i, a)] => [OAddAgent i a]
  | PInsertAgent [(i, a)] => [OInsertAgent i a]
  | PInsertAgents [i] n => [OInsertAgents i n]
  | PClearLocations _ ns => [OClearLocations ns]
  | PEvolve _ _ fuel => [OEvolve fuel]
  | _ => []
  end.
Definition serial_program (h : list (settings * pop)) : history :=
  flat_map (fun sc => map (pair (fst sc)) (serial_calls (fst sc) (snd sc))) h.

(** Settings and calls for which the two versions do the same: routes are not stored, camps
    are no sinks, the agent log shows no intermediate stops, no location has a limited
    capacity and no location is cleared. *)
Record ordinary (S : settings) (c : pop) : Prop := {
  or_routes : s_FixedRoutes S = false;
  or_sinks : s_camps_are_sinks S = false;
  or_log : (s_log_agent S <= 1)%Z;
  or_scaling : (0 <= s_CapacityScaling S)%Q;
  or_capacity : forall n r x y lt mc cap pop f cn a,
    c = PAddLocation n r x y lt mc cap pop f cn a -> (cap <= 0)%Z;
  or_clears : forall lat ns, c <> PClearLocations lat ns }.

(** A location and a road without the counters of people (and without stored routes) *)
Definition place_part (l : location) : location :=
  Location (l_name l) (l_region l) (l_x l) (l_y l) (l_movechance l) (l_links l) (l_closed_links l) []
    (l_major_routes l) 0 0 (l_capacity l) (l_pop l) (l_foreign l) (l_country l) (l_conflict l) (l_camp l)
    (l_idpcamp l) (l_town l) (l_forward l) (l_marker l) (l_flood_zone l) (l_time_of_conflict l) 0 0
    (l_attributes l) (l_score0 l) (l_score1 l) (l_incoming_journey_lengths l).
Definition road_part (k : link) : link :=
  Link (k_startpoint k) (k_endpoint k) (k_closed k) (k_distance k) 0 (k_cumNumAgents k) 0
    (k_forced_redirection k) (k_attributes k) (k_cumByAttribute k).

(** Two ecosystems with the same people in the same places, the same map, clock, closures,
    attributes, arrival statistics and logs *)
Record same_world (e e' : eco) : Prop := {
  sw_agents : e_agents e' = e_agents e;
  sw_places : map place_part (e_locations e') = map place_part (e_locations e);
  sw_names : e_locationNames e' = e_locationNames e;
  sw_roads : map road_part (e_links e') = map road_part (e_links e);
  sw_attributes : e_dicts e' = e_dicts e;
  sw_closures : e_closures e' = e_closures e;
  sw_time : e_time e' = e_time e;
  sw_arrivals : e_num_arrivals e' = e_num_arrivals e;
  sw_durations : e_travel_durations e' = e_travel_durations e;
  sw_agent_log : e_agents_out e' = e_agents_out e;
  sw_link_log : e_links_out e' = e_links_out e }.

(** The calls that count the people of all processes *)
Definition synchronises (c : pop) : bool :=
  match c with PEvolve _ _ _ | PUpdateNumAgents _ _ => true | _ => false end.
