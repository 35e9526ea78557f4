(** * PropertiesGraph: C87

    The exported graph.  The vocabulary ([graph_edges], [name_at]) is in SpecGraph.v,
    [distinct_names] in SpecClosures.v. *)

From Verif Require Import Base State Moving Scoring Flee Spawning Api SpecAgents SpecHistory SpecRoutes SpecChoice SpecClosures SpecGraph
  Lemmas Defaults ExampleRun ClosureWitness GraphProofs.
Local Open Scope string_scope.
Local Open Scope list_scope.
Local Opaque run.

(** C87. In every simulation state the export succeeds: the vertices are the names of the
    locations, in order, and the edges the open roads, location by location. *)
Theorem C87_graph : forall o e g, reachable o e g ->
  export_graph e = Ok (map (fun l => sval (l_name l)) (e_locations e), graph_edges e).
Proof. exact graph_exported. Qed.
Print Assumptions C87_graph.

(** An edge is in the export exactly if there is an open road between two locations of
    those names with that length, and both its ends are vertices. *)
Theorem C87_edge : forall o e g vs es a b d, reachable o e g -> export_graph e = Ok (vs, es) ->
  (In (a, b, d) es <-> exists i la j lb ki k, nth_error (e_locations e) i = Some la /\ nth_error (e_locations e) j = Some lb /\
     sval (l_name la) = a /\ sval (l_name lb) = b /\ In ki (l_links la) /\ nth_error (e_links e) ki = Some k /\
     k_startpoint k = i /\ k_endpoint k = j /\ k_closed k = false /\ k_distance k = d) /\
  (In (a, b, d) es -> In a vs /\ In b vs).
Proof. exact graph_edge. Qed.
Print Assumptions C87_edge.

(** Linking two locations adds the two edges between them, and changes nothing else. *)
Theorem C87_linked : forall o e g i li j lj d forced attrs e' vs es vs' es',
  reachable o e g -> distinct_names e ->
  nth_error (e_locations e) i = Some li -> nth_error (e_locations e) j = Some lj ->
  link_up (lname li) (lname lj) d forced attrs e = Ok e' ->
  export_graph e = Ok (vs, es) -> export_graph e' = Ok (vs', es') ->
  vs' = vs /\ List.length es' = (List.length es + 2)%nat /\
  forall x, In x es' <-> In x es \/ x = (lname li, lname lj, d) \/ x = (lname lj, lname li, d).
Proof. exact graph_linked. Qed.
Print Assumptions C87_linked.

(** Removing or closing a link removes every edge in that direction between the two
    locations, keeps all others in their order, and reports whether there was one. *)
Theorem C87_closed : forall o e g i li j lj close_only e' found vs es vs' es',
  reachable o e g -> distinct_names e ->
  nth_error (e_locations e) i = Some li -> nth_error (e_locations e) j = Some lj ->
  remove_link (l_name li) (l_name lj) false close_only e = Ok (e', found) ->
  export_graph e = Ok (vs, es) -> export_graph e' = Ok (vs', es') ->
  vs' = vs /\ es' = filter (fun x => negb (String.eqb (fst (fst x)) (lname li) && String.eqb (snd (fst x)) (lname lj))) es /\
  (found = true <-> exists d, In (lname li, lname lj, d) es).
Proof. exact graph_closed. Qed.
Print Assumptions C87_closed.

(** After one day of the example: the graph, then with a road A-C, then without B-C *)
Example C87_example :
  reachable ex_oracle (then_eco []) (then_rng []) /\ distinct_names (then_eco []) /\
  export_graph (then_eco []) = Ok (["A"; "B"; "C"], [("A", "B", 100%Q); ("B", "A", 100%Q); ("B", "C", 500%Q); ("C", "B", 500%Q)]) /\
  (e' <- link_up "A" "C" 7%Q false None (then_eco []) ;; export_graph e') =
    Ok (["A"; "B"; "C"], [("A", "B", 100%Q); ("A", "C", 7%Q); ("B", "A", 100%Q); ("B", "C", 500%Q); ("C", "B", 500%Q); ("C", "A", 7%Q)]) /\
  (r <- remove_link nB nC false true (then_eco []) ;; export_graph (fst r)) =
    Ok (["A"; "B"; "C"], [("A", "B", 100%Q); ("B", "A", 100%Q); ("C", "B", 500%Q)]).
Proof. split; [exact reach0|]. split; [exact distinct0|]. do 2 (split; [vm_compute; reflexivity|]). vm_compute; reflexivity. Qed.
