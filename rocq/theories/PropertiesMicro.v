(** * PropertiesMicro: C86, the input of the micro model and its roads in bad weather

    Vocabulary: SpecNetwork.v (cells, types of locations, roads, closures), SpecMicro.v (rows
    of the micro model, links, weather). *)

From Verif Require Import Base State Moving Flee InputGeography Pflee MicroGeography SpecAgents SpecHistory SpecNetwork SpecMicro
  Defaults ExampleRun NetworkWitness MicroProofs MicroWays.
Local Open Scope string_scope.
Local Open Scope Q_scope.
Local Open Scope list_scope.

(** C86. routes.csv of the micro model is read if and only if every row is readable: no
    empty rows, and at least five cells in rows that are no comments.  The first five cells
    are kept. *)
Theorem C86_file : forall rows links,
  micro_read_links rows = Ok links <->
  Forall readable rows /\ links = map (firstn 5) (filter (fun r => negb (skipped r)) rows).
Proof. exact micro_file. Qed.
Print Assumptions C86_file.

(** Storing the tables: every row of locations becomes one location, every road of
    routes.csv a pair of links listed at their starting points, every row of closures.csv
    a closure; the first link of a road is given its type and the second one none.  What
    was there before stays, and nobody is added. *)
Theorem C86_stored : forall S o factor locs links closures e types g e' types' g',
  map l_name (e_locations e) = e_locationNames e ->
  micro_store S o factor locs links closures e types g = Ok (e', types', g') ->
  exists rss new,
    List.length (e_locations e') = (List.length (e_locations e) + List.length locs)%nat /\
    (forall i l, nth_error (e_locations e) i = Some l ->
       nth_error (e_locations e') i = Some (up_l_links (fun ks => ks ++ leaving i (List.length (e_links e)) new) l)) /\
    (forall n r, nth_error locs n = Some r -> let i := (List.length (e_locations e) + n)%nat in
       exists l attrs, nth_error (e_locations e') i = Some l /\ nth_error (e_dicts e') (l_attributes l) = Some attrs /\
         micro_row S factor r l attrs /\
         l_links l = leaving i (List.length (e_links e)) new /\ l_closed_links l = [] /\
         l_numAgents l = 0%Z /\ l_numAgentsSpawned l = 0%Z /\ l_time_of_conflict l = (-1)%Z) /\
    Forall2 (fun r rt => micro_roads r (fst rt) (snd rt)) links rss /\
    all_laid e' (flat_map fst rss) new /\ e_links e' = e_links e ++ new /\
    types' = types ++ flat_map (fun rt => link_types (fst rt) (snd rt)) rss /\
    Forall2 closure_row closures (e_closures e') /\
    e_dicts e' = e_dicts e /\ e_agents e' = e_agents e /\ e_time e' = e_time e.
Proof. exact micro_stored. Qed.
Print Assumptions C86_stored.

(** Three locations, and three routes of which the last makes two roads *)
Example C86_example :
  is_ok (micro_read_links micro_link_file) = true /\ map l_name (e_locations (empty_par 0 1)) = e_locationNames (empty_par 0 1) /\
  rmap (fun r => let e := fst (fst r) in
          (map (fun l => (lname l, l_region l, l_country l, l_camp l, l_town l, l_conflict l, l_capacity l, l_pop l)) (e_locations e),
           map (fun k => (k_startpoint k, k_endpoint k, k_distance k, k_forced_redirection k)) (e_links e),
           snd (fst r), map l_links (e_locations e)))
    (micro_store ex_S ex_oracle 10 micro_loc_rows micro_link_rows closure_rows (empty_par 0 1) [] ex_draws) =
  Ok ([("A", "unknown", "X", false, false, 1, (-1)%Z, 50%Z); ("B", "unknown", "unknown", false, true, -1, (-1)%Z, 20%Z);
       ("C", "unknown", "Y", true, false, -1, 9%Z, 0%Z)],
      [(0%nat, 1%nat, 100, false); (1%nat, 0%nat, 100, false); (1%nat, 2%nat, 40, true); (2%nat, 1%nat, 40, false);
       (0%nat, 2%nat, 300, true); (2%nat, 0%nat, 300, false); (0%nat, 2%nat, 300, false); (2%nat, 0%nat, 300, false)],
      [Some "crossing"; None; Some "drive"; None; Some "walk"; None; Some "walk"; None],
      [[0; 4; 6]%nat; [1; 2]%nat; [3; 5; 7]%nat]).
Proof. split; [vm_compute; reflexivity|]. split; vm_compute; reflexivity. Qed.

(** A row of locations whose third cell, the country in locations.csv of the base model, is
    text and no number ends the program. *)
Theorem C86_country : forall S o factor locs links closures e types g r c x,
  In r locs -> nth_error r 2 = Some c -> sval c <> "" -> parse_Q (sval c) = None ->
  micro_store S o factor locs links closures e types g <> Ok x.
Proof. exact micro_refuses. Qed.
Print Assumptions C86_country.

Example C86_country_example : exists r c, In r (ig_locations tables) /\ nth_error r 2 = Some c /\ sval c <> "" /\ parse_Q (sval c) = None.
Proof. exact tables_row. Qed.

(** So the micro model does not accept the locations that the base model accepts, although
    it reads them with the reader of the base model. *)
Theorem C86_same_file_refuted : ~ (forall S o factor ig changes e1 g r e2 links closures types,
  store_input S o factor ig changes e1 g = Ok r ->
  exists x, micro_store S o factor (ig_locations ig) links closures e2 types g = Ok x).
Proof. exact same_file_false. Qed.
Print Assumptions C86_same_file_refuted.

(** The length of a crossing follows the level of the river on that day ... *)
Theorem C86_river : forall w from to x1 x2 distance time d,
  weather_distance (Some w) (Some "crossing") from to x1 x2 distance time = Ok d <->
  exists before level after f, w_river w = before ++ (Z.of_nat time, level) :: after /\
    (forall r, In r before -> fst r <> Z.of_nat time) /\ river_factor level f /\ d = distance * f.
Proof. exact weather_river. Qed.
Print Assumptions C86_river.

(** ... and that of other roads the rain on the road in any of the two directions. *)
Theorem C86_rain : forall w type from to x1 x2 distance time d, type <> Some "crossing" ->
  (weather_distance (Some w) type from to x1 x2 distance time = Ok d <->
   exists before name days after tp f, w_rain w = before ++ (name, days) :: after /\
     (name = (from ++ " - " ++ to)%string \/ name = (to ++ " - " ++ from)%string) /\
     (forall c, In c before -> fst c <> (from ++ " - " ++ to)%string /\ fst c <> (to ++ " - " ++ from)%string) /\
     nth_error days time = Some tp /\ rain_factor x1 x2 tp f /\ d = distance * f).
Proof. exact weather_rain. Qed.
Print Assumptions C86_rain.

(** Weather never makes a road shorter, and never more than 10000 times longer; more rain
    never makes it shorter. *)
Theorem C86_bounds : forall w type from to x1 x2 distance time d, 0 <= distance ->
  weather_distance w type from to x1 x2 distance time = Ok d -> distance <= d /\ d <= 10000 * distance.
Proof. exact weather_bounds. Qed.
Print Assumptions C86_bounds.
Theorem C86_more_rain : forall name days river type from to x1 x2 distance t t' tp tp' d d', 0 <= distance -> type <> Some "crossing" ->
  nth_error days t = Some tp -> nth_error days t' = Some tp' -> tp <= tp' ->
  weather_distance (Some (Weather [(name, days)] river)) type from to x1 x2 distance t = Ok d ->
  weather_distance (Some (Weather [(name, days)] river)) type from to x1 x2 distance t' = Ok d' -> d <= d'.
Proof. exact more_rain. Qed.
Print Assumptions C86_more_rain.

(** A road that is no crossing is as long in one direction as in the other. *)
Theorem C86_two_ways : forall S o factor locs links closures rank size g e types g' w x1 x2 time n d d',
  micro_store S o factor locs links closures (empty_par rank size) [] g = Ok (e, types, g') ->
  nth_error types (2 * n) <> Some (Some "crossing") ->
  link_length w e types (2 * n) x1 x2 time d -> link_length w e types (Datatypes.S (2 * n)) x1 x2 time d' -> d' = d.
Proof. exact two_ways. Qed.
Print Assumptions C86_two_ways.

(** Not so a crossing: the way back knows nothing of the river. *)
Theorem C86_crossing_refuted : ~ (forall S o factor locs links closures rank size g e types g' w x1 x2 time n d d',
  micro_store S o factor locs links closures (empty_par rank size) [] g = Ok (e, types, g') ->
  link_length w e types (2 * n) x1 x2 time d -> link_length w e types (Datatypes.S (2 * n)) x1 x2 time d' -> d' == d).
Proof. exact one_way. Qed.
Print Assumptions C86_crossing_refuted.

(** Road B - C on a dry, a wet and a flooded day, and the crossing A - B *)
Example C86_weather_example :
  nth_error micro_types 2 <> Some (Some "crossing") /\
  map (fun t => weather_distance (Some micro_weather) (Some "drive") "C" "B" 5 12 40 t) [0; 1; 2; 3]%nat =
    [Ok (40 * 1); Ok (40 * 2); Ok (40 * 10000); Err IndexError] /\
  map (fun t => weather_distance (Some micro_weather) (Some "crossing") "A" "B" 5 12 100 t) [0; 1; 2; 3]%nat =
    [Ok (100 * 10000); Ok (100 * 1); Ok (100 * 10000); Err IndexError] /\
  map (fun t => weather_distance (Some micro_weather) None "B" "A" 5 12 100 t) [0; 1; 2]%nat =
    [Ok (100 * 1); Ok (100 * 2); Ok (100 * 10000)].
Proof. split; [vm_compute; discriminate|]. split; [vm_compute; reflexivity|]. split; vm_compute; reflexivity. Qed.
