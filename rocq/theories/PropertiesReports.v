(** * PropertiesReports: C42, C43, C46

    Location scores, arrival statistics and the agent log.  The vocabulary is in
    SpecReports.v ([score_of], [floods_ok], [rescored], [line], [block]) and
    SpecArrivals.v ([tour], [camp_arrivals], [mean]). *)

From Verif Require Import Base State Moving Crawling Scoring Diagnostics Flee DataTable Spawning InputGeography Api
  SpecAgents SpecHistory SpecRoutes SpecZones SpecArrivals SpecReports Lemmas Inv Defaults ExampleRun ClosureWitness
  ArrivalProofs ReportProofs ReportWitness.
Local Open Scope string_scope.
Local Open Scope Q_scope.
Local Open Scope list_scope.
Local Opaque run.

(** C42. At the start of a step every location gets score 1 for staying and, for moving
    there, the product of the foreign, camp, conflict and flood factors that apply to it;
    nothing but scores and stored routes changes. *)
Theorem C42_scores : forall o e g S g1 e' g',
  reachable o e g -> decay_ok S -> 0 < s_ConflictWeight S -> floods_ok S e ->
  update_scores S o e g1 = Ok (e', g') ->
  e' = up_e_locations (fun _ => e_locations e') e /\ List.length (e_locations e') = List.length (e_locations e) /\
  forall i l, nth_error (e_locations e) i = Some l -> exists d l', attributes_of e l d /\ nth_error (e_locations e') i = Some l' /\
    rescored l l' /\ l_score0 l' = 1 /\ l_score1 l' == score_of S o (e_time e) l d.
Proof. exact scores_spec. Qed.
Print Assumptions C42_scores.

(** Without fixed routes the update always succeeds. *)
Theorem C42_total : forall o e g S g1,
  reachable o e g -> decay_ok S -> 0 < s_ConflictWeight S -> floods_ok S e ->
  s_FixedRoutes S = false -> exists e', update_scores S o e g1 = Ok (e', g1).
Proof. exact scores_total. Qed.
Print Assumptions C42_total.

(** Updating one location changes nothing else, nor its routes unless routes are fixed. *)
Theorem C42_one : forall S o t i e g e' g',
  updateLocationScore S o t i e g = Ok (e', g') ->
  e' = up_e_locations (fun _ => e_locations e') e /\
  (forall j, j <> i -> nth_error (e_locations e') j = nth_error (e_locations e) j) /\
  exists l l', nth_error (e_locations e) i = Some l /\ nth_error (e_locations e') i = Some l' /\ rescored l l' /\ l_score0 l' = 1 /\
    (s_FixedRoutes S = false -> l_routes l' = l_routes l) /\
    (decay_ok S -> 0 < s_ConflictWeight S -> (l_time_of_conflict l <= t)%Z -> (forall d, attributes_of e l d -> flood_ok S t l d) ->
      exists d, attributes_of e l d /\ l_score1 l' == score_of S o t l d).
Proof. exact score_one. Qed.
Print Assumptions C42_one.

(** The score depends only on the location itself: the same location, with the same
    attributes on the same day, gets the same score in any two worlds. *)
Theorem C42_itself : forall o S e1 e2 g1 g2 e1' e2' g1' g2' i j l1 l2 d,
  update_scores S o e1 g1 = Ok (e1', g1') -> update_scores S o e2 g2 = Ok (e2', g2') -> e_time e1 = e_time e2 ->
  nth_error (e_locations e1) i = Some l1 -> nth_error (e_locations e2) j = Some l2 -> rescored l1 l2 ->
  attributes_of e1 l1 d -> attributes_of e2 l2 d ->
  option_map l_score1 (nth_error (e_locations e1') i) = option_map l_score1 (nth_error (e_locations e2') j).
Proof. exact score_itself. Qed.
Print Assumptions C42_itself.

(** Positive weights give positive scores, if no flood forecast is in use. *)
Theorem C42_positive : forall S o day l d,
  0 < s_ForeignWeight S -> 0 < s_CampWeight S -> 0 < s_ConflictWeight S ->
  (forall x y, 0 < x -> 0 < o_pow o x y) ->
  (l_flood_zone l = true -> window S day = None /\ forall i, has_entry (s_FloodLocWeights S) i -> 0 < entry (s_FloodLocWeights S) i) ->
  flood_ok S day l d -> 0 < score_of S o day l d.
Proof. exact score_positive. Qed.
Print Assumptions C42_positive.

(** With a forecast a flood zone for which no flood is forecast has score 0, whatever the
    weights. *)
Theorem C42_forecast_refuted : forall S o day l d ts last level,
  l_flood_zone l = true -> dict_get "flood_level" d = Some (VInt level) ->
  window S day = Some (ts, last) -> dict_get "forecast_flood_level" d = None -> score_of S o day l d == 0.
Proof. exact score_forecast_zero. Qed.
Print Assumptions C42_forecast_refuted.

(** A conflict zone, a town, a foreign camp, a flood zone without forecast and one with *)
Example C42_example :
  reachable ex_oracle flood_eco flood_rng /\ decay_ok flood_S /\ 0 < s_ConflictWeight flood_S /\ floods_ok flood_S flood_eco /\
  scores (update_scores flood_S ex_oracle flood_eco flood_rng) =
    Ok [(1, 100000000000 # 316227766017); (1, 1); (1, 3); (1, 0); (1, 3 # 512)].
Proof.
  split; [exact flood_reachable|]. split; [exact Logic.I|]. split; [vm_compute; reflexivity|].
  split; [apply floods_b_ok; vm_compute; reflexivity|]. vm_compute; reflexivity.
Qed.
Example C42_positive_example : forall l d, l_flood_zone l = false -> l_camp l = true -> l_foreign l = true -> l_conflict l = 0 ->
  (forall x y, 0 < x -> 0 < o_pow (Oracle (fun _ _ => 1) (fun _ _ => 1)) x y) /\
  score_of flood_S (Oracle (fun _ _ => 1) (fun _ _ => 1)) 1 l d == 3.
Proof. intros l d F C G H. split; [reflexivity|]. unfold score_of, factor, conflict_factor, flood_factor. rewrite F, C, G, H. reflexivity. Qed.

(** C43. In every step each active agent makes a tour; the number of trips it ends is
    added to its counter.  If camps are logged, the number of arrivals reported is the
    number of trips that ended in camps, and the duration reported is the mean, over
    these arrivals, of the age in days of the arriving agent (0 for none). *)
Theorem C43_arrivals : forall o fuel S e g e' g',
  reachable o e g -> evolve fuel S o e g = Ok (e', g') ->
  exists tours, (forall n a, nth_error (e_agents e) n = Some a -> exists a', nth_error (e_agents e') n = Some a' /\
      if deactivated a then tours n = [] else exists back p', tour e (a_location a) (tours n) back p' /\
        (a_location a' = p' \/ exists i, p' = PLoc i /\ a_location a' = PGone i) /\
        a_places_travelled a' = (a_places_travelled a + Z.of_nat (List.length (tours n)) + Z.of_nat back)%Z) /\
    if (0 <? s_log_camp S)%Z then
      e_num_arrivals e' = e_num_arrivals e ++ [Z.of_nat (List.length (camp_arrivals e tours))] /\
      e_travel_durations e' = e_travel_durations e ++ [mean (map a_timesteps_since_departure (camp_arrivals e tours))]
    else e_num_arrivals e' = e_num_arrivals e /\ e_travel_durations e' = e_travel_durations e.
Proof. exact arrivals_spec. Qed.
Print Assumptions C43_arrivals.

(** Between steps the buffers of recorded durations are empty. *)
Theorem C43_buffers : forall o e g, reachable o e g -> forall l, In l (e_locations e) -> l_incoming_journey_lengths l = [].
Proof. exact reachable_quiet. Qed.
Print Assumptions C43_buffers.

Example C43_example :
  reachable ex_oracle (then_eco [OEvolve 10; OEvolve 10]) (then_rng [OEvolve 10; OEvolve 10]) /\
  rmap (fun r => (e_num_arrivals (fst r), e_travel_durations (fst r)))
    (evolve 10 ex_S ex_oracle (then_eco [OEvolve 10; OEvolve 10]) (then_rng [OEvolve 10; OEvolve 10])) =
  Ok ([0; 1; 1; 1]%Z, [0; 1; 2; 3]).
Proof. split; [apply then_reachable; vm_compute; reflexivity|]. vm_compute; reflexivity. Qed.

(** C46. A step with an agent log appends, in the order of the agents, one block of lines
    per active agent, none for the others: a line with its number, home, present place and
    travel record, and, with level 2 or more, one line for each link passed in the step.
    At time 0 the file starts anew.  (An agent deactivated in the step is logged in its
    camp.) *)
Theorem C46_log : forall fuel S o e g e' g',
  (0 < s_log_agent S)%Z -> evolve fuel S o e g = Ok (e', g') ->
  exists bs, e_agents_out e' = (if (e_time e =? 0)%Z then [] else e_agents_out e) ++ List.concat bs /\
    List.length bs = List.length (e_agents e') /\
    forall n a a' b, nth_error (e_agents e) n = Some a -> nth_error (e_agents e') n = Some a' -> nth_error bs n = Some b ->
      if deactivated a then b = [] else block e' (e_time e) (s_log_agent S) n a' b.
Proof. exact evolve_log. Qed.
Print Assumptions C46_log.

(** The writer itself, with the distance moved, which the step resets afterwards *)
Theorem C46_writer : forall S e e', write_agents S e = Ok e' ->
  exists bs, e' = up_e_agents_out (fun old => (if (e_time e =? 0)%Z then [] else old) ++ List.concat bs) e /\
    List.length bs = List.length (e_agents e) /\
    forall n a b, nth_error (e_agents e) n = Some a -> nth_error bs n = Some b ->
      Forall (fun r => ar_moved r = a_distance_moved_this_timestep a) b /\
      if deactivated a then b = [] else block e (e_time e) (s_log_agent S) n a b.
Proof. exact log_step. Qed.
Print Assumptions C46_writer.

(** It fails at time 0 without agents, and with granularity "region". *)
Theorem C46_no_agents_refuted : forall S e, e_time e = 0%Z -> e_agents e = [] -> write_agents S e = Err IndexError.
Proof. exact log_no_agents. Qed.
Print Assumptions C46_no_agents_refuted.
Theorem C46_region_refuted : forall S e a, Inv e -> s_granularity S = "region" -> In a (e_agents e) -> deactivated a = false ->
  write_agents S e = Err NameError.
Proof. exact log_region. Qed.
Print Assumptions C46_region_refuted.

Example C46_example :
  reachable ex_oracle (then_eco []) (then_rng []) /\
  rmap (fun r => map (fun r => (ar_time r, ar_hop r, ar_agent r, ar_home r, ar_loc r)) (e_agents_out (fst r)))
    (evolve 10 (log_S 3) ex_oracle (then_eco []) (then_rng [])) =
  Ok [(1, 0, 0%nat, "A", "B"); (1, 0, 1%nat, "A", "L:B:C"); (1, 0, 2%nat, "B", "C"); (1, 1, 2%nat, "B", "L:B:C")]%Z /\
  rmap (fun r => map (fun r => (ar_agent r, ar_loc r, ar_travelling r)) (e_agents_out (fst r)))
    (evolve 10 (log_S 1) ex_oracle (then_eco []) (then_rng [])) =
  Ok [(0%nat, "B", false); (1%nat, "L:B:C", true); (2%nat, "C", false)] /\
  rmap fst (evolve 10 (log_S 1) ex_oracle empty_eco ex_draws) = Err IndexError /\
  rmap fst (evolve 10 (up_s_granularity (fun _ => "region") (log_S 1)) ex_oracle (then_eco []) (then_rng [])) = Err NameError.
Proof. split; [exact reach0|]. vm_compute; repeat split; reflexivity. Qed.
