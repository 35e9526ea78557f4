(** * Properties of travel and of decisions: C07 to C13 *)

From Coq Require Import Qround.
From Verif Require Import Base State Moving Flee Api SpecAgents SpecHistory SpecRoutes SpecTravel
  SpecChoice SpecDecide Defaults ExampleRun ExampleTravel TravelProps TravelWitness Detached DecideProps Diverge
  SpecZones SpecReports SpecWeights WeightFacts Naming.
Local Open Scope Q_scope.

(** C07. In a time step an agent in a location ends up in a place it can reach by following
    open links; an agent on a link stays on it, or reaches its end point and goes on from
    there, or, if the link was closed, returns to its start point. *)
Theorem C07_moves_follow_open_links : forall o fuel S e g e' g' ai a,
  reachable o e g -> rng_ok g -> evolve fuel S o e g = Ok (e', g') ->
  nth_error (e_agents e) ai = Some a -> deactivated a = false ->
  exists a', nth_error (e_agents e') ai = Some a' /\
  match a_location a with
  | PLoc i => ends_near e i (a_location a')
  | PLink ki => (a_location a' = PLink ki /\ a_places_travelled a' = a_places_travelled a) \/
      exists k, nth_error (e_links e) ki = Some k /\
        if k_closed k
        then a_location a' = PLoc (k_startpoint k) \/ a_location a' = PGone (k_startpoint k)
        else ends_near e (k_endpoint k) (a_location a')
  | PGone _ => False
  end.
Proof. exact evolve_near. Qed.
Print Assumptions C07_moves_follow_open_links.

(** A single decision that changes an agent's place puts it from a location on one of that
    location's open links. *)
Theorem C07_departure : forall S o t f ai e g e' g' a a', asked o e g ->
  person_evolve S o t f ai e g = Ok (e', g') -> nth_error (e_agents e) ai = Some a ->
  nth_error (e_agents e') ai = Some a' -> a_location a' <> a_location a ->
  exists i ki k, a_location a = PLoc i /\ a_location a' = PLink ki /\ open_link e i ki k /\ k_startpoint k = i.
Proof. exact departs_on_link. Qed.
Print Assumptions C07_departure.

(** The whole time step, hop by hop and with distances, is a [day] of the specification. *)
Theorem C07_day : forall o fuel S e g e' g' ai a,
  reachable o e g -> rng_ok g -> evolve fuel S o e g = Ok (e', g') ->
  nth_error (e_agents e) ai = Some a -> deactivated a = false ->
  exists a' m p', nth_error (e_agents e') ai = Some a' /\
    day S e 0 (a_places_travelled a) (a_location a) (a_distance_travelled_on_link a)
            m (a_places_travelled a') p' (a_distance_travelled_on_link a') /\
    (a_location a' = p' \/ exists i, p' = PLoc i /\ a_location a' = PGone i).
Proof. exact evolve_is_day. Qed.
Print Assumptions C07_day.

Example C07_example : reachable ex_oracle (ex_state 0) (ex_rng 0) /\ rng_ok (ex_rng 0) /\
  is_ok (evolve 10 ex_S ex_oracle (ex_state 0) (ex_rng 0)) = true /\
  map a_location (e_agents (ex_state 0)) = [PLoc 0; PLoc 0; PLoc 1] /\
  map a_location (e_agents (ex_state 1)) = [PLoc 1; PLoc 1; PLink 2] /\
  map l_links (e_locations (ex_state 0)) = [[0]; [1; 2]; [3]]%nat.
Proof. exact near_example. Qed.
Example C07_departure_example : asked ex_oracle (ex_state 0) (ex_rng 0).
Proof. apply asked_between, ex_reachable. vm_compute. reflexivity. Qed.

(** C08. An agent enters link [ki] and is travelling on it at the end of that day, at a
    constant [s] kilometres a day.  It is on that trip up to day floor(D/s) and its trip
    is over on day floor(D/s)+1 (the day it sets out is day 1), whatever else happens
    (agents are not removed). *)
Theorem C08_travel_time : forall o fuel S e g e1 g1 h e' g' ai a a1 i ki k s,
  reachable o e g -> rng_ok g ->
  nth_error (e_agents e) ai = Some a -> a_location a = PLoc i ->
  evolve fuel S o e g = Ok (e1, g1) ->
  nth_error (e_agents e1) ai = Some a1 -> a_location a1 = PLink ki ->
  nth_error (e_links e) ki = Some k -> 0 < s ->
  run o h e1 g1 = Ok (e', g') -> no_clear h ->
  during (steady (a_places_travelled a1) ki s) o ((S, OEvolve fuel) :: h) e g ->
  exists a', nth_error (e_agents e') ai = Some a' /\
    let today := Z.of_nat (1 + days h) in
    ((today <= Qfloor (k_distance k / s))%Z ->
       a_location a' = PLink ki /\ a_places_travelled a' = a_places_travelled a1) /\
    ((Qfloor (k_distance k / s) + 1 <= today)%Z -> (a_places_travelled a1 < a_places_travelled a')%Z).
Proof. exact trip_time. Qed.
Print Assumptions C08_travel_time.

(** From any point of a link, with exact distances *)
Theorem C08_progress : forall o e g h e' g' ai a ki k s,
  reachable o e g -> rng_ok g -> run o h e g = Ok (e', g') -> no_clear h ->
  nth_error (e_agents e) ai = Some a -> a_location a = PLink ki ->
  nth_error (e_links e) ki = Some k -> 0 < s ->
  during (steady (a_places_travelled a) ki s) o h e g ->
  exists a', nth_error (e_agents e') ai = Some a' /\
    let covered := a_distance_travelled_on_link a + inject_Z (Z.of_nat (days h)) * s in
    (covered <= k_distance k ->
       a_location a' = PLink ki /\ a_places_travelled a' = a_places_travelled a /\
       a_distance_travelled_on_link a' == covered) /\
    (k_distance k < covered -> (a_places_travelled a < a_places_travelled a')%Z).
Proof. exact travel_time. Qed.
Print Assumptions C08_progress.

(** On the day it sets out it covers one day's distance. *)
Theorem C08_first_day : forall o fuel S e g e' g' ai a a' i ki,
  reachable o e g -> rng_ok g -> evolve fuel S o e g = Ok (e', g') ->
  nth_error (e_agents e) ai = Some a -> a_location a = PLoc i ->
  nth_error (e_agents e') ai = Some a' -> a_location a' = PLink ki ->
  exists k s, nth_error (e_links e) ki = Some k /\
    speed_today S e (a_places_travelled a') k s /\
    a_distance_travelled_on_link a' == s /\ s <= k_distance k.
Proof. exact departure_day. Qed.
Print Assumptions C08_first_day.

(** A road of 1000 km at 200 km a day takes six days. *)
Example C08_example : let e := road_eco 1000 [] in let g := road_rng 1000 [] in
  reachable ex_oracle e g /\ rng_ok g /\
  map a_location (e_agents e) = [PLoc 0] /\
  during (steady 1 0 200) ex_oracle (map (pair road_S) (repeat a_day 6)) e g /\
  map (fun n => map a_location (e_agents (road_eco 1000 (repeat a_day n)))) [1; 5; 6]%nat =
    [[PLink 0]; [PLink 0]; [PLink 1]] /\
  map (fun n => map a_places_travelled (e_agents (road_eco 1000 (repeat a_day n)))) [1; 5; 6]%nat =
    [[1]; [1]; [2]]%Z.
Proof. exact road_example. Qed.

(** C09. If no link is shorter than [m0] > 0 and no speed exceeds [v], more than v/m0
    recursive calls per agent suffice for every time step: the recursion terminates, *)
Theorem C09_step_terminates : forall o S e g m0 v n fuel,
  reachable o e g -> rng_ok g ->
  (forall ki k, nth_error (e_links e) ki = Some k ->
     m0 <= k_distance k /\ forall trip s, speed_today S e trip k s -> s <= v) ->
  0 < m0 -> v <= inject_Z (Z.of_nat n) * m0 -> (n < fuel)%nat ->
  evolve fuel S o e g <> Err OutOfFuel.
Proof. exact step_terminates. Qed.
Print Assumptions C09_step_terminates.

(** and a larger budget never changes the result. *)
Theorem C09_budget_irrelevant : forall S o e g fuel fuel', (fuel <= fuel')%nat ->
  evolve fuel S o e g <> Err OutOfFuel -> evolve fuel' S o e g = evolve fuel S o e g.
Proof. exact step_budget. Qed.
Print Assumptions C09_budget_irrelevant.

(** With links of length zero a time step need not end. *)
Theorem C09_zero_length_refuted : exists o S e g, reachable o e g /\ rng_ok g /\
  forall fuel, evolve fuel S o e g = Err OutOfFuel.
Proof. exact zero_length_diverges. Qed.
Print Assumptions C09_zero_length_refuted.

Example C09_example : let e := road_eco 1 [] in
  reachable ex_oracle e (road_rng 1 []) /\
  (forall ki k, nth_error (e_links e) ki = Some k ->
     1 <= k_distance k /\ forall trip s, speed_today road_S e trip k s -> s <= 200) /\
  evolve 100 road_S ex_oracle e (road_rng 1 []) = Err OutOfFuel /\
  is_ok (evolve 201 road_S ex_oracle e (road_rng 1 [])) = true.
Proof. exact short_road_example. Qed.

(** C10. If all possible speeds are at most [v], an agent covers less than 2v kilometres in
    a time step, and recent_travel_distance is the mean of its old value and the distance
    covered relative to MaxMoveSpeed; *)
Theorem C10_distance_per_step : forall o fuel S e g e' g' ai a v,
  reachable o e g -> rng_ok g -> evolve fuel S o e g = Ok (e', g') -> 0 < v -> speeds_up_to v S e ->
  nth_error (e_agents e) ai = Some a -> deactivated a = false ->
  exists a' m p', nth_error (e_agents e') ai = Some a' /\
    day S e 0 (a_places_travelled a) (a_location a) (a_distance_travelled_on_link a)
            m (a_places_travelled a') p' (a_distance_travelled_on_link a') /\
    0 <= m /\ m < 2 * v /\
    a_recent_travel_distance a' = (a_recent_travel_distance a + m / s_MaxMoveSpeed S) / 2.
Proof. exact evolve_distance. Qed.
Print Assumptions C10_distance_per_step.

(** it is always in [0,2) if MaxMoveSpeed is the largest speed. *)
Theorem C10_recent_distance : forall o h g0 e g, rng_ok g0 -> run o h empty_eco g0 = Ok (e, g) ->
  during usual_speeds o h empty_eco g0 ->
  forall a, In a (e_agents e) -> 0 <= a_recent_travel_distance a < 2.
Proof. exact recent_bounded. Qed.
Print Assumptions C10_recent_distance.

(** The documented limits do not hold: an agent can cover more than MaxMoveSpeed, *)
Theorem C10_daily_limit_refuted : exists o S e g fuel e' g' a a',
  reachable o e g /\ rng_ok g /\ speeds_up_to (s_MaxMoveSpeed S) S e /\
  evolve fuel S o e g = Ok (e', g') /\
  nth_error (e_agents e) 0 = Some a /\ nth_error (e_agents e') 0 = Some a' /\
  s_MaxMoveSpeed S < a_distance_travelled a' - a_distance_travelled a.
Proof. exact daily_limit_broken. Qed.
Print Assumptions C10_daily_limit_refuted.

(** and recent_travel_distance can exceed 1. *)
Theorem C10_recent_limit_refuted : exists o h g0 e g, rng_ok g0 /\ run o h empty_eco g0 = Ok (e, g) /\
  during usual_speeds o h empty_eco g0 /\
  exists a, In a (e_agents e) /\ 1 < a_recent_travel_distance a.
Proof. exact recent_limit_broken. Qed.
Print Assumptions C10_recent_limit_refuted.

(** C11. An agent is on a link object that is closed.  Whatever is called afterwards
    (reopening the link included), while it is on this trip a time step leaves it on the
    link or puts it at the link's start point, where it stays until the end of the step. *)
Theorem C11_closed_under_way : forall o e g h e1 g1 fuel S e2 g2 ai a ki k a1,
  reachable o e g -> rng_ok g ->
  nth_error (e_agents e) ai = Some a -> a_location a = PLink ki ->
  nth_error (e_links e) ki = Some k -> k_closed k = true ->
  run o h e g = Ok (e1, g1) -> no_clear h ->
  nth_error (e_agents e1) ai = Some a1 -> a_places_travelled a1 = a_places_travelled a ->
  evolve fuel S o e1 g1 = Ok (e2, g2) ->
  a_location a1 = PLink ki /\
  exists a2, nth_error (e_agents e2) ai = Some a2 /\
    ((a_location a2 = PLink ki /\ a_places_travelled a2 = a_places_travelled a) \/
     ((a_location a2 = PLoc (k_startpoint k) \/ a_location a2 = PGone (k_startpoint k)) /\
      a_places_travelled a2 = (a_places_travelled a + 1)%Z)).
Proof. exact closed_under_way. Qed.
Print Assumptions C11_closed_under_way.

(** Closing the link from a location named [s] to one whose name is the object [t] marks
    the link objects agents are on as closed, and moves no agent. *)
Theorem C11_close_marks : forall s t e e' b i l ki k ep, close_link s t false e = Ok (e', b) ->
  found_as e (sval s) i -> nth_error (e_locations e) i = Some l -> In ki (l_links l) ->
  nth_error (e_links e) ki = Some k -> nth_error (e_locations e) (k_endpoint k) = Some ep ->
  py_is (l_name ep) t = true ->
  e_agents e' = e_agents e /\ exists k', nth_error (e_links e') ki = Some k' /\ k_closed k' = true.
Proof. exact close_mark. Qed.
Print Assumptions C11_close_marks.

(** 500 km: the link is closed after one day and reopened at once; on day 3 the agent is
    back at A. *)
Example C11_example :
  let closing := [a_day; ORemoveLink nA nB false true] in
  let e := road_eco 500 closing in
  reachable ex_oracle e (road_rng 500 closing) /\
  map a_location (e_agents e) = [PLink 0] /\ map k_closed (e_links e) = [true; false; true] /\
  map a_location (e_agents (road_eco 500 (closing ++ [OReopenLink nA nB false; a_day]))) = [PLink 0] /\
  map a_location (e_agents (road_eco 500 (closing ++ [OReopenLink nA nB false; a_day; a_day]))) = [PLoc 0] /\
  map a_location (e_agents (road_eco 500 [a_day; a_day; a_day])) = [PLink 1].
Proof. exact closing_example. Qed.

(** C12. With a move chance of at most 0 a decision changes nothing; *)
Theorem C12_never_leaves : forall S o t f ai e g e' g' a i l mc, asked o e g -> 0 <= next_draw g ->
  person_evolve S o t f ai e g = Ok (e', g') ->
  nth_error (e_agents e) ai = Some a -> a_location a = PLoc i -> nth_error (e_locations e) i = Some l ->
  leaves_with S o e a l f t mc -> mc <= 0 -> e' = e.
Proof. exact stays_without_chance. Qed.
Print Assumptions C12_never_leaves.

(** the agent is still there at the end of the day; *)
Theorem C12_never_leaves_day : forall o fuel S e g e' g' ai a i l mc,
  reachable o e g -> rng_ok g -> evolve fuel S o e g = Ok (e', g') ->
  nth_error (e_agents e) ai = Some a -> a_location a = PLoc i -> nth_error (e_locations e) i = Some l ->
  leaves_with S o e a l false (e_time e) mc -> mc <= 0 ->
  exists a', nth_error (e_agents e') ai = Some a' /\ (a_location a' = PLoc i \/ a_location a' = PGone i) /\
    a_places_travelled a' = a_places_travelled a.
Proof. exact stays_day_without_chance. Qed.
Print Assumptions C12_never_leaves_day.

(** with a move chance of at least 1, an agent without a plan sets out, unless its location
    has no open links or the route it selects ends in a full camp. *)
Theorem C12_always_tries : forall S o t f ai e g e' g' a i l mc, asked o e g -> next_draw g < 1 ->
  person_evolve S o t f ai e g = Ok (e', g') ->
  nth_error (e_agents e) ai = Some a -> a_location a = PLoc i -> nth_error (e_locations e) i = Some l ->
  leaves_with S o e a l f t mc -> 1 <= mc ->
  a_route a = Some [] -> (0 < s_AwarenessLevel S)%Z -> s_FixedRoutes S = false ->
  exists a', nth_error (e_agents e') ai = Some a' /\
    ((exists ki k rest, open_link e i ki k /\ sets_out a a' ki rest) \/
     (l_links l = [] /\ stays_put a a') \/
     (exists stops d, path e i stops d /\ full_camp S e (name_at e (last_stop stops)) /\ stays_put a a')).
Proof. exact tries_with_chance. Qed.
Print Assumptions C12_always_tries.

(** Without flood rules and with scale factor 0 (the default) the move chance is the
    location's own, or 1 in a town if the agent is made to move on. *)
Theorem C12_default_chance : forall S o e a l f t mc, s_FloodRulesEnabled S = false ->
  s_MovechancePopScaleFactor S = 0 -> ~ s_MovechancePopBase S == 0 -> (forall x, o_pow o x 0 == 1) ->
  (leaves_with S o e a l f t mc <-> mc == if (l_town l && f)%bool then 1 else l_movechance l).
Proof. exact chance_default. Qed.
Print Assumptions C12_default_chance.

(** With AwarenessLevel 0 an agent with move chance 1 never gets away. *)
Theorem C12_no_awareness_refuted : exists o S e g a l,
  reachable o e g /\ rng_ok g /\ s_AwarenessLevel S = 0%Z /\
  nth_error (e_agents e) 0 = Some a /\ a_location a = PLoc 0 /\ a_route a = Some [] /\
  nth_error (e_locations e) 0 = Some l /\ l_links l = [0%nat] /\
  leaves_with S o e a l false 0 1 /\
  forall u, 0 <= u -> u < 1 -> exists e' g' a',
    person_evolve S o 0 false 0 e (rng_const u) = Ok (e', g') /\
    nth_error (e_agents e') 0 = Some a' /\ stays_put a a'.
Proof. exact unaware. Qed.
Print Assumptions C12_no_awareness_refuted.

Example C12_example :
  match nth_error (e_agents (ex_state 0)) 0, nth_error (e_locations (ex_state 0)) 0,
        nth_error (e_agents still_eco) 0, nth_error (e_locations still_eco) 0 with
  | Some a, Some l, Some b, Some k =>
      leaves_with ex_S ex_oracle (ex_state 0) a l false 0 1 /\ a_route a = Some [] /\
      is_ok (person_evolve ex_S ex_oracle 0 false 0 (ex_state 0) (ex_rng 0)) = true /\
      leaves_with ex_S ex_oracle still_eco b k false 0 0 /\ a_location b = PLoc 0 /\
      is_ok (evolve 10 ex_S ex_oracle still_eco (rng_const 0)) = true
  | _, _, _, _ => False
  end.
Proof. exact chance_example. Qed.
Example C12_still_reachable : reachable ex_oracle still_eco still_rng /\ rng_ok still_rng.
Proof. exact still_reachable. Qed.

(** C13. If the last stop of the plan an agent uses is a full camp, the agent stays and
    drops the plan; *)
Theorem C13_full_camp : forall S o t f ai e g e' g' a i l mc plan dest, asked o e g ->
  person_evolve S o t f ai e g = Ok (e', g') ->
  nth_error (e_agents e) ai = Some a -> a_location a = PLoc i -> nth_error (e_locations e) i = Some l ->
  leaves_with S o e a l f t mc -> next_draw g < mc ->
  plan_used S o e a l t (snd (rng_u g)) (Some plan) -> plan <> [] ->
  List.last plan (RName "") = RName dest -> full_camp S e dest ->
  exists a', nth_error (e_agents e') ai = Some a' /\ stays_put a a'.
Proof. exact full_camp_stays. Qed.
Print Assumptions C13_full_camp.

(** an agent that sets out has a plan whose last stop is not a full camp. *)
Theorem C13_departure : forall S o t f ai e g e' g' a a' i l ki, asked o e g ->
  person_evolve S o t f ai e g = Ok (e', g') ->
  nth_error (e_agents e) ai = Some a -> a_location a = PLoc i -> nth_error (e_locations e) i = Some l ->
  nth_error (e_agents e') ai = Some a' -> a_location a' = PLink ki ->
  exists next rest dest, plan_used S o e a l t (snd (rng_u g)) (Some (next :: rest)) /\
    a_route a' = Some rest /\ List.last (next :: rest) next = RName dest /\ ~ full_camp S e dest.
Proof. exact departs_not_full. Qed.
Print Assumptions C13_departure.

(** A camp with room for one, with one agent in it, next to a conflict zone *)
Example C13_example : reachable ex_oracle full_eco full_rng /\ full_camp ex_S full_eco "C" /\
  match nth_error (e_agents full_eco) 0, nth_error (e_locations full_eco) 0 with
  | Some a, Some l => a_location a = PLoc 0 /\
      leaves_with ex_S ex_oracle full_eco a l false 0 1 /\ next_draw full_rng < 1 /\
      rmap fst (selectRoute ex_S ex_oracle full_eco a l 0 (snd (rng_u full_rng))) = Ok (Some [RName "C"]) /\
      is_ok (person_evolve ex_S ex_oracle 0 false 0 full_eco full_rng) = true
  | _, _ => False
  end.
Proof. exact full_chance. Qed.
