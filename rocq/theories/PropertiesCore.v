(** * Properties of every history of API calls: C01-C06, C45

    A history is a list of API calls, each with the settings in force when it is made
    ([Api.op], [Api.run]); [reachable o e g] says that some history of calls on a new
    ecosystem ends in the state [e].  The histories, the random streams and the oracles
    for [**] and the distance function are arbitrary. *)

From Verif Require Import Base State Flee Api SpecAgents SpecHistory Defaults ExampleRun CoreProofs.
Local Open Scope Z_scope.

(** C01. The head count of location [i] is the number of agents that are in it or were
    deactivated in it. *)
Theorem C01_location_head_counts : forall o e g, reachable o e g ->
  forall i l, nth_error (e_locations e) i = Some l ->
    l_numAgents l = how_many (fun a => in_location i a || left_from i a)%bool (e_agents e) /\
    0 <= l_numAgents l.
Proof. exact location_counts. Qed.
Print Assumptions C01_location_head_counts.

Example C01_example : reachable ex_oracle (ex_state 3) (ex_rng 3) /\
  map l_numAgents (e_locations (ex_state 3)) = [0; 0; 2] /\
  map a_location (e_agents (ex_state 3)) = [PLink 2; PGone 2; PLoc 2].
Proof. split; [apply ex_reachable|split]; vm_compute; reflexivity. Qed.

(** C02. The head count of a link object is the number of agents on it.  [e_links] holds
    all link objects ever created: open ones, stored closed ones and detached ones. *)
Theorem C02_link_head_counts : forall o e g, reachable o e g ->
  forall ki k, nth_error (e_links e) ki = Some k ->
    k_numAgents k = how_many (on_link ki) (e_agents e) /\ 0 <= k_numAgents k.
Proof. exact link_counts. Qed.
Print Assumptions C02_link_head_counts.

Example C02_example : reachable ex_oracle (ex_state 3) (ex_rng 3) /\
  map k_numAgents (e_links (ex_state 3)) = [0; 0; 1; 0].
Proof. split; [apply ex_reachable|]; vm_compute; reflexivity. Qed.

(** C03. One time step keeps the number of agents, their order, homes and attributes; *)
Theorem C03_evolve_keeps_agents : forall fuel S o e g e' g',
  evolve fuel S o e g = Ok (e', g') ->
  num_agents e' = num_agents e /\
  map a_home_location (e_agents e') = map a_home_location (e_agents e) /\
  map a_attributes (e_agents e') = map a_attributes (e_agents e).
Proof. exact evolve_keeps. Qed.
Print Assumptions C03_evolve_keeps_agents.

(** and everybody is counted exactly once. *)
Theorem C03_heads_sum_to_numAgents : forall o e g, reachable o e g ->
  sumZ (map l_numAgents (e_locations e)) + sumZ (map k_numAgents (e_links e)) =
  Z.of_nat (num_agents e).
Proof. exact total_counts. Qed.
Print Assumptions C03_heads_sum_to_numAgents.

Example C03_example : is_ok (evolve 10 ex_S ex_oracle (ex_state 2) (ex_rng 2)) = true /\
  num_agents (ex_state 2) = 3%nat.
Proof. split; vm_compute; reflexivity. Qed.

(** C04. An agent is in a location and not travelling, on a link and travelling, or
    deactivated and not travelling; its position and home exist, and so do the ends of
    every link. *)
Theorem C04_positions : forall o e g, reachable o e g ->
  forall a, In a (e_agents e) ->
    (a_home_location a < List.length (e_locations e))%nat /\
    match a_location a with
    | PLoc i => (i < List.length (e_locations e))%nat /\ a_travelling a = false
    | PLink k => (k < List.length (e_links e))%nat /\ a_travelling a = true
    | PGone i => (i < List.length (e_locations e))%nat /\ a_travelling a = false
    end.
Proof. exact positions_ok. Qed.
Print Assumptions C04_positions.

Theorem C04_link_ends : forall o e g, reachable o e g ->
  forall k, In k (e_links e) ->
    (k_startpoint k < List.length (e_locations e))%nat /\
    (k_endpoint k < List.length (e_locations e))%nat.
Proof. exact links_ok. Qed.
Print Assumptions C04_link_ends.

Example C04_example : reachable ex_oracle (ex_state 3) (ex_rng 3) /\
  map a_travelling (e_agents (ex_state 3)) = [true; false; false].
Proof. split; [apply ex_reachable|]; vm_compute; reflexivity. Qed.

(** C05. A call that deactivates an agent is [evolve] with camps_are_sinks set, and the
    agent is in a camp; *)
Theorem C05_only_in_sink_camps : forall o S c e g e' g' ai a a',
  step o S c e g = Ok (e', g') ->
  nth_error (e_agents e) ai = Some a -> nth_error (e_agents e') ai = Some a' ->
  deactivated a = false -> deactivated a' = true ->
  is_evolve c = true /\ s_camps_are_sinks S = true /\
  exists i l, a_location a' = PGone i /\ nth_error (e_locations e') i = Some l /\ l_camp l = true.
Proof. exact step_deactivates. Qed.
Print Assumptions C05_only_in_sink_camps.

(** new agents are active; *)
Theorem C05_new_agents_active : forall o S c e g e' g' ai a',
  step o S c e g = Ok (e', g') ->
  nth_error (e_agents e) ai = None -> nth_error (e_agents e') ai = Some a' ->
  deactivated a' = false.
Proof. exact step_new_active. Qed.
Print Assumptions C05_new_agents_active.

(** whatever happens later, a deactivated agent keeps its number in the list of agents
    and its place (so it still counts, by C01 and C03); *)
Theorem C05_permanent : forall o e g e' g', later o e g e' g' ->
  forall ai a, nth_error (e_agents e) ai = Some a -> deactivated a = true ->
    exists a', nth_error (e_agents e') ai = Some a' /\ a_location a' = a_location a.
Proof. exact later_gone. Qed.
Print Assumptions C05_permanent.

(** without sink camps nobody is ever deactivated. *)
Theorem C05_never_without_sinks : forall o h g0 e g,
  Forall (fun c => s_camps_are_sinks (fst c) = false) h ->
  run o h empty_eco g0 = Ok (e, g) ->
  forall a, In a (e_agents e) -> deactivated a = false.
Proof. exact no_sinks. Qed.
Print Assumptions C05_never_without_sinks.

Example C05_example :
  is_ok (step ex_oracle ex_S (OEvolve 10) (ex_state 2) (ex_rng 2)) = true /\
  map deactivated (e_agents (ex_state 2)) = [false; false; false] /\
  map deactivated (e_agents (end_eco (step ex_oracle ex_S (OEvolve 10) (ex_state 2) (ex_rng 2)))) =
    [false; true; false].
Proof. repeat split; vm_compute; reflexivity. Qed.
Example C05_later_example : later ex_oracle (ex_state 3) (ex_rng 3) (ex_state 5) (ex_rng 5).
Proof. exists [(ex_S, OEvolve 10); (ex_S, OEvolve 10)]. vm_compute. reflexivity. Qed.
Example C05_without_sinks_example :
  let h := map (pair default_settings) (ex_build ++ repeat (OEvolve 10) 3) in
  Forall (fun c => s_camps_are_sinks (fst c) = false) h /\
  is_ok (run ex_oracle h empty_eco ex_draws) = true.
Proof. split; [|vm_compute; reflexivity]. repeat constructor. Qed.

(** C06. Only [evolve] advances the clock, by one; *)
Theorem C06_clock : forall o S c e g e' g', step o S c e g = Ok (e', g') ->
  e_time e' = e_time e + (if is_evolve c then 1 else 0).
Proof. exact step_clock. Qed.
Print Assumptions C06_clock.

(** it advances the travel time of each agent that is active by one; *)
Theorem C06_timesteps : forall fuel S o e g e' g' ai a,
  evolve fuel S o e g = Ok (e', g') -> nth_error (e_agents e) ai = Some a ->
  exists a', nth_error (e_agents e') ai = Some a' /\
    a_timesteps_since_departure a' =
      a_timesteps_since_departure a + (if deactivated a then 0 else 1).
Proof. exact evolve_timesteps. Qed.
Print Assumptions C06_timesteps.

(** every other call leaves the existing agents as they are; new agents stand in their
    home and start counting at zero.  (clearLocationsFromAgents removes all agents.) *)
Theorem C06_other_calls : forall o S c e g e' g',
  is_evolve c = false -> is_clear c = false -> step o S c e g = Ok (e', g') ->
  exists new, e_agents e' = (e_agents e ++ new)%list /\
    forall a, In a new -> a_timesteps_since_departure a = 0 /\
      a_location a = PLoc (a_home_location a).
Proof. exact other_calls. Qed.
Print Assumptions C06_other_calls.

Theorem C06_clear : forall o S names e g e' g',
  step o S (OClearLocations names) e g = Ok (e', g') -> e_agents e' = [].
Proof. exact clear_empties. Qed.
Print Assumptions C06_clear.

Example C06_example :
  is_ok (step ex_oracle ex_S (OEvolve 10) (ex_state 3) (ex_rng 3)) = true /\
  is_ok (step ex_oracle ex_S (OAddAgent 0 []) (ex_state 3) (ex_rng 3)) = true /\
  map a_timesteps_since_departure (e_agents (ex_state 4)) = [4; 3; 4].
Proof. repeat split; vm_compute; reflexivity. Qed.

(** C45. Link objects are never lost; they keep their ends and length, and the number of
    agents that ever entered them never decreases; *)
Theorem C45_traffic_grows : forall o e g e' g', later o e g e' g' ->
  forall ki k, nth_error (e_links e) ki = Some k ->
    exists k', nth_error (e_links e') ki = Some k' /\
      k_startpoint k' = k_startpoint k /\ k_endpoint k' = k_endpoint k /\
      k_distance k' = k_distance k /\ k_cumNumAgents k <= k_cumNumAgents k'.
Proof. exact later_grow. Qed.
Print Assumptions C45_traffic_grows.

(** it is at least the number of agents on the link. *)
Theorem C45_traffic_bound : forall o e g, reachable o e g ->
  forall k, In k (e_links e) -> k_numAgents k <= k_cumNumAgents k.
Proof. exact cum_bound. Qed.
Print Assumptions C45_traffic_bound.

Example C45_example : later ex_oracle (ex_state 1) (ex_rng 1) (ex_state 3) (ex_rng 3) /\
  map k_cumNumAgents (e_links (ex_state 1)) = [2; 0; 1; 0] /\
  map k_cumNumAgents (e_links (ex_state 3)) = [2; 0; 3; 0].
Proof.
  split; [|split]; [exists [(ex_S, OEvolve 10); (ex_S, OEvolve 10)]|..]; vm_compute; reflexivity.
Qed.
