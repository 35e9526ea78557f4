(** * PropertiesSerial: C69, and stored routes on several processes (C38)

    Vocabulary ([serial_program], [ordinary], [same_world], [synchronises]): SpecSerial.v;
    [listed]: SpecParallel.v. *)

From Verif Require Import Base State Flee Api Pflee ParApi SpecAgents SpecParallel SpecSerial Defaults
  ExampleRun SerialRun SerialWitness.
Local Open Scope string_scope.
Local Open Scope Q_scope.
Local Open Scope list_scope.
Local Opaque prun run.

(** C69. A parallel program on one process gives the results of the serial program with the
    same calls and the same random numbers: the same people in the same places, the same map,
    clock, arrival statistics and logs. *)
Theorem C69_one_process : forall o h g st,
  (forall S c, In (S, c) h -> ordinary S c) ->
  prun o h (pstart [g]) = Ok st ->
  exists e e' g', st = [(e', g')] /\ run o (serial_program h) empty_eco g = Ok (e, g') /\ same_world e e'.
Proof. exact f_serial. Qed.
Print Assumptions C69_one_process.

(** After a time step or updateNumAgents the head counts of all locations and of all open
    roads agree as well. *)
Theorem C69_head_counts : forall o h g S c st,
  (forall S1 c1, In (S1, c1) (h ++ [(S, c)]) -> ordinary S1 c1) -> synchronises c = true ->
  prun o (h ++ [(S, c)]) (pstart [g]) = Ok st ->
  exists e e' g', st = [(e', g')] /\ run o (serial_program (h ++ [(S, c)])) empty_eco g = Ok (e, g') /\
    map l_numAgents (e_locations e') = map l_numAgents (e_locations e) /\
    forall k x x', listed false e k -> nth_error (e_links e) k = Some x -> nth_error (e_links e') k = Some x' ->
      k_numAgents x' = k_numAgents x.
Proof. exact f_serial_counts. Qed.
Print Assumptions C69_head_counts.

(** With a camp of limited capacity it fails: the parallel version looks at the head counts
    of the last synchronisation, so three people enter a camp for one on the same day. *)
Theorem C69_capacity_refuted : exists o h g e e' g1 g1',
  (forall S c, In (S, c) h -> S = default_settings /\ forall lat ns, c <> PClearLocations lat ns) /\
  prun o h (pstart [g]) = Ok [(e', g1')] /\ run o (serial_program h) empty_eco g = Ok (e, g1) /\
  map l_capacity (e_locations e') = [(-1)%Z; (-1)%Z; 1%Z] /\
  map a_location (e_agents e) = [PLoc 2; PLoc 0; PLoc 0] /\
  map a_location (e_agents e') = [PLoc 2; PLoc 2; PLoc 2].
Proof. exact sr_capacity. Qed.
Print Assumptions C69_capacity_refuted.

(** With the intermediate stops in the agent log it fails: the parallel version writes the
    stops of earlier days again. *)
Theorem C69_stops_refuted : exists o h g e e' g1 g1',
  (forall S c, In (S, c) h -> S = sr_log 2) /\
  prun o h (pstart [g]) = Ok [(e', g1')] /\ run o (serial_program h) empty_eco g = Ok (e, g1) /\
  map a_location (e_agents e') = map a_location (e_agents e) /\
  places_logged 1 0 (e_agents_out e) = ["C"] /\
  places_logged 1 0 (e_agents_out e') = ["C"; "L:A:B"; "L:B:C"].
Proof. exact sr_stops. Qed.
Print Assumptions C69_stops_refuted.

Example C69_example :
  (forall S c, In (S, c) (sr_program (sr_log 1) (-1) 2) -> ordinary S c) /\
  ends 1 (sr_par (sr_log 1) (-1) 2) = true /\
  map a_location (e_agents (first_eco (sr_par (sr_log 1) (-1) 2))) = [PLoc 2; PLoc 2; PLoc 2] /\
  List.length (e_agents_out (first_eco (sr_par (sr_log 1) (-1) 2))) = 6%nat.
Proof. split; [apply sr_ordinary; discriminate|]. repeat split; vm_compute; reflexivity. Qed.

(** C38. The scores are shared when the work is split by location, the stored routes (with
    fixed routes) are not: after a road is closed, one process still
    offers the closed road and its agent goes nowhere, while the agent of the other process
    leaves. *)
Theorem C38_stored_routes_refuted : exists h gs e0 g0 e1 g1,
  prun ex_oracle h (pstart gs) = Ok [(e0, g0); (e1, g1)] /\
  map l_links (e_locations e0) = map l_links (e_locations e1) /\
  map (fun l => map fst (l_routes l)) (e_locations e0) = [["B"; "C"]; ["A"]; ["B"; "A"]] /\
  map (fun l => map fst (l_routes l)) (e_locations e1) = [["B"; "C"]; ["C"; "A"]; ["B"; "A"]] /\
  map (fun l => map (fun k => match nth_error (e_links e1) k with Some x => k_endpoint x | None => 0%nat end) (l_links l))
    (e_locations e1) = [[1%nat; 2%nat]; [0%nat]; [1%nat; 0%nat]] /\
  map a_location (e_agents e0) = [PLink 3] /\ map a_location (e_agents e1) = [PLoc 1].
Proof. exact fx_routes. Qed.
Print Assumptions C38_stored_routes_refuted.
