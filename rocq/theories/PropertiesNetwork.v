(** * PropertiesNetwork: C54-C56, locations, the network and the agents described by the input

    Vocabulary: SpecNetwork.v (types of locations, rows of the tables, roads), SpecSpawn.v
    (grown), SpecZones.v (weights). *)

From Verif Require Import Base State Moving Crawling Flee DataTable Spawning InputGeography Api SpecAgents SpecHistory SpecZones
  SpecSpawn SpecNetwork Defaults ExampleRun NetworkProofs SettlerProofs NetworkWitness ClosureWitness ZoneWitness.
Local Open Scope string_scope.
Local Open Scope Q_scope.
Local Open Scope list_scope.
Local Opaque run.

(** C54. Adding a location appends one location and changes nothing else but the spawn
    weights; it has the given data, nobody in it, no roads, and the type, move chance and
    conflict level that the description asks for. *)
Theorem C54_added : forall S o name region x y descr given cap pop foreign country attrs e g e' g',
  add_location S o name region x y descr given cap pop foreign country attrs e g = Ok (e', g') ->
  exists l d,
    e' = up_e_spawn_weights (fun _ => e_spawn_weights e') (up_e_dicts (fun _ => e_dicts e')
           (up_e_locationNames (fun ns => ns ++ [name]) (up_e_locations (fun ls => ls ++ [l]) e))) /\
    e_dicts e' = e_dicts e ++ match attrs with Some a => [a] | None => [] end /\
    nth_error (e_dicts e') (l_attributes l) = Some d /\ (forall a, attrs = Some a -> d = a /\ l_attributes l = List.length (e_dicts e)) /\
    l_name l = name /\ l_region l = region /\ l_x l = x /\ l_y l = y /\ l_capacity l = cap /\ l_pop l = pop /\
    l_foreign l = foreign /\ l_country l = country /\
    typed S descr given d l /\ untouched l /\ (s_FixedRoutes S = false -> l_routes l = []).
Proof. exact location_added. Qed.
Print Assumptions C54_added.

(** Afterwards the spawn weights fit the locations. *)
Theorem C54_weights : forall o g0 S name region x y descr given cap pop foreign country attrs e g e' g',
  reachable o e g0 -> decay_ok S ->
  add_location S o name region x y descr given cap pop foreign country attrs e g = Ok (e', g') -> weights_current S e'.
Proof. exact added_weights. Qed.
Print Assumptions C54_weights.

(** In the example network: an IDP camp, a conflict zone of intensity 1/2, and a place
    with a small move chance, which counts as a camp. *)
Example C54_example :
  reachable ex_oracle (then_eco []) (then_rng []) /\ decay_ok ex_S /\
  rmap (fun r => (map (fun l => (lname l, l_camp l, l_idpcamp l, l_movechance l, l_conflict l)) (skipn 3 (e_locations (fst r))),
                  skipn 3 (map Qred (e_spawn_weights (fst r)))))
    (run ex_oracle (map (pair ex_S)
       [OAddLocation (PS "D" 4) "r" 3 0 (Some "IdpCamp") 1 70 0 false "X" None;
        OAddLocation (PS "E" 5) "r" 3 1 (Some "Conflict_Zone") 1 (-1) 60 false "X" (Some [("conflict_intensity", VStr "0.5")]);
        OAddLocation (PS "F" 6) "r" 3 2 None (1 # 1000) (-1) 0 true "Y" None]) (then_eco []) (then_rng [])) =
  Ok ([("D", true, true, s_IDPCampMoveChance ex_S, -1); ("E", false, false, s_ConflictMoveChance ex_S, 5 # 10);
       ("F", true, false, 1 # 1000, -1)], [0; 30; 0]).
Proof. split; [exact reach0|]. split; [exact I|]. vm_compute; reflexivity. Qed.

(** C55. Storing the tables: every row of locations.csv becomes one location, every road
    of routes.csv a pair of links listed at their starting points, every row of
    closures.csv a closure; what was there before stays, and nobody is added. *)
Theorem C55_stored : forall o e g0 S factor ig changes g e' g' ig',
  reachable o e g0 -> store_input S o factor ig changes e g = Ok (e', g', ig') ->
  exists first home rss links rows,
    nth_error (ig_locations ig) 0 = Some first /\ option_map (fun c => or_unknown (sval c)) (nth_error first 2) = Some home /\
    List.length (e_locations e') = (List.length (e_locations e) + List.length (ig_locations ig))%nat /\
    (forall i l, nth_error (e_locations e) i = Some l ->
       nth_error (e_locations e') i = Some (up_l_links (fun ks => ks ++ leaving i (List.length (e_links e)) links) l)) /\
    (forall n r, nth_error (ig_locations ig) n = Some r -> let i := (List.length (e_locations e) + n)%nat in
       exists l attrs, nth_error (e_locations e') i = Some l /\ nth_error (e_dicts e') (l_attributes l) = Some attrs /\
         from_row S factor home (ig_columns ig) (ig_major_routes ig) r l attrs /\
         l_links l = leaving i (List.length (e_links e)) links /\ l_closed_links l = [] /\
         l_numAgents l = 0%Z /\ l_numAgentsSpawned l = 0%Z /\ l_time_of_conflict l = (-1)%Z) /\
    Forall2 (fun r ra => roads_from_row (ig_link_columns ig) r (fst ra) (snd ra)) (ig_links ig) rss /\
    all_built e' (flat_map (fun ra => map (fun x => (x, snd ra)) (fst ra)) rss) links /\
    e_links e' = e_links e ++ links /\
    ig_closures ig = Some rows /\ Forall2 closure_row rows (e_closures e') /\
    e_agents e' = e_agents e /\ e_time e' = e_time e /\
    ig_location_changes ig' = Some (filter (fun r => negb (skipped r)) changes).
Proof. exact network_stored. Qed.
Print Assumptions C55_stored.

(** Comments and empty rows of locations.csv and routes.csv are no data, but the cells of
    comments after the fixed columns name further columns. *)
Theorem C55_locations_file : forall rows cols locs, read_locations rows = Ok (cols, locs) ->
  locs = filter (fun r => negb (skipped r)) rows /\
  cols = (if existsb (fun r => skipped r && (8 <? List.length r)%nat)%bool rows
          then Some (["name"; "region"; "country"; "gps_x"; "gps_y"; "location_type"; "conflict_date"; "pop/cap"] ++
                     flat_map (fun r => if skipped r then map sval (skipn 8 r) else []) rows)
          else None).
Proof. exact locations_read. Qed.
Print Assumptions C55_locations_file.

Theorem C55_links_file : forall rows cols links, read_links rows = Ok (cols, links) ->
  links = filter (fun r => negb (skipped r)) rows /\
  cols = (if existsb skipped rows
          then Some (["name1"; "name2"; "distance"; "forced_redirection"] ++
                     flat_map (fun r => if skipped r then map sval (skipn 4 r) else []) rows)
          else None).
Proof. exact links_read. Qed.
Print Assumptions C55_links_file.

(** Three rows of locations.csv and three of routes.csv. *)
Example C55_example :
  reachable ex_oracle empty_eco ex_draws /\ is_ok (read_locations loc_rows) = true /\ is_ok (read_links link_rows) = true /\
  rmap (fun r => let e := fst (fst r) in
          (map (fun l => (lname l, l_region l, l_country l, l_foreign l, l_x l)) (e_locations e),
           map (fun l => (l_camp l, l_town l, l_conflict l, l_capacity l, l_pop l, l_major_routes l)) (e_locations e),
           map (fun k => (k_startpoint k, k_endpoint k, k_distance k, k_forced_redirection k)) (e_links e),
           map l_links (e_locations e)))
    (store_input ex_S ex_oracle 10 tables [] empty_eco ex_draws) =
  Ok ([("A", "north", "X", false, 15 # 10); ("B", "unknown", "X", false, 0); ("C", "east", "Y", true, 4)],
      [(false, false, 5 # 10, (-1)%Z, 50%Z, [["B"; "C"]]); (false, true, -1, (-1)%Z, 20%Z, []); (true, false, -1, 9%Z, 0%Z, [["B"; "A"]; ["A"]])],
      [(0%nat, 1%nat, 100, true); (1%nat, 0%nat, 100, false); (0%nat, 1%nat, 100, false); (1%nat, 0%nat, 100, false);
       (1%nat, 2%nat, 405 # 10, true); (2%nat, 1%nat, 405 # 10, false); (0%nat, 2%nat, 300, false); (2%nat, 0%nat, 300, false)],
      [[0; 2; 6]%nat; [1; 3; 4]%nat; [5; 7]%nat]).
Proof. split; [apply empty_reachable|]. repeat split; vm_compute; reflexivity. Qed.

(** A row of routes.csv need not make exactly one road: a redirection mark 1 makes two,
    one of them without the mark. *)
Theorem C55_one_road_refuted : ~ (forall o e g0 S factor ig changes g e' g' ig',
  reachable o e g0 -> store_input S o factor ig changes e g = Ok (e', g', ig') ->
  List.length (e_links e') = (List.length (e_links e) + 2 * List.length (ig_links ig))%nat).
Proof. exact one_road_false. Qed.
Print Assumptions C55_one_road_refuted.

(** C56. Reading agents.csv: the first row names the attributes unless it is a comment;
    every further row that is no comment adds one agent to each location of that name,
    with the cells as attributes; the head counts, and populations if agents are taken
    from them, follow, and nothing else changes. *)
Theorem C56_agents : forall o e g S rows e', reachable o e g -> read_agents S rows e = Ok e' ->
  exists groups, grown (s_TakeFromPopulation S) (List.concat groups) e e' /\
    match rows with
    | [] => groups = []
    | h :: data => Forall2 (settlers e (if skipped h then [] else map sval (tl h))) (filter (fun r => negb (skipped r)) data) groups
    end.
Proof. exact agents_read. Qed.
Print Assumptions C56_agents.

Example C56_example :
  reachable ex_oracle (net_eco tables) (net_rng tables) /\
  rmap (fun e => (map (fun a => (a_location a, a_attributes a)) (e_agents e), map l_numAgents (e_locations e)))
    (read_agents ex_S agent_rows (net_eco tables)) =
  Ok ([(PLoc 0, [("age", VStr "34"); ("sex", VStr "f")]); (PLoc 2, [("age", VStr "7")]); (PLoc 0, [])], [2; 0; 1]%Z).
Proof. split; [exact (net_reachable _ net_ok)|]. vm_compute; reflexivity. Qed.
