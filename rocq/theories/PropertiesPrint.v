(** * PropertiesPrint: C92, showing the graph

    Vocabulary: SpecGraph.v ([name_at]), SpecClosures.v ([opens], [distinct_names]),
    SpecPrint.v.  [print_graph] and [graph_nx] are postprocessing/analyze_graph.py
    (GraphPrint.v). *)

From Verif Require Import Base State Moving Scoring Flee Spawning Api SpecAgents SpecHistory SpecRoutes SpecClosures SpecGraph GraphPrint SpecPrint
  Lemmas Defaults ExampleRun ClosureWitness PrintProofs.
Local Open Scope string_scope.
Local Open Scope list_scope.
Local Opaque run.

(** C92. In every simulation state whose locations have different names, printing the
    exported graph shows each location once, followed by the ends of its own open roads, in
    order, with their lengths if that is asked for. *)
Theorem C92_printed : forall o e g dist vs es, reachable o e g -> distinct_names e -> export_graph e = Ok (vs, es) ->
  print_graph vs es dist = flat_map (fun i => Vertex (name_at e i) ::
    map (fun k => Arrow (name_at e (k_endpoint k)) (if dist then Some (k_distance k) else None)) (opens e i)) (seq 0 (List.length (e_locations e))).
Proof. exact printed_ok. Qed.
Print Assumptions C92_printed.
Example C92_printed_example :
  reachable ex_oracle (then_eco []) (then_rng []) /\ distinct_names (then_eco []) /\
  ('(vs, es) <- export_graph (then_eco []) ;; Ok (print_graph vs es true)) =
    Ok [Vertex "A"; Arrow "B" (Some 100%Q); Vertex "B"; Arrow "A" (Some 100%Q); Arrow "C" (Some 500%Q); Vertex "C"; Arrow "B" (Some 500%Q)].
Proof. split; [exact reach0|]. split; [exact distinct0|]. vm_compute; reflexivity. Qed.

(** The graph handed to networkx has the vertices as nodes and each pair of linked places
    once; its weight is the length, cut off to a whole number, of the last link between
    them. *)
Theorem C92_graph : forall vs es, NoDup vs -> (forall a b d, In (a, b, d) es -> In a vs /\ In b vs) ->
  nodes (graph_nx vs es) = vs /\ NoDup (edges (graph_nx vs es)) /\
  (forall a b, In (a, b) (edges (graph_nx vs es)) <-> exists d, In (a, b, d) es) /\
  (forall a b w, has_weight (graph_nx vs es) a b w <-> exists d, last_edge es a b d /\ w = Qtrunc d).
Proof. exact nx_shown. Qed.
Print Assumptions C92_graph.
(** The exported graph is such a graph. *)
Theorem C92_exported : forall o e g vs es, reachable o e g -> distinct_names e -> export_graph e = Ok (vs, es) ->
  NoDup vs /\ forall a b d, In (a, b, d) es -> In a vs /\ In b vs.
Proof. exact nx_reachable. Qed.
Print Assumptions C92_exported.
Example C92_graph_example :
  ('(vs, es) <- export_graph (then_eco []) ;; Ok (graph_nx vs es)) =
    Ok [("A", [("B", 100%Z)]); ("B", [("A", 100%Z); ("C", 500%Z)]); ("C", [("B", 500%Z)])] /\
  (e' <- link_up "A" "C" (15 # 2)%Q false None (then_eco []) ;; '(vs, es) <- export_graph e' ;; Ok (edges (graph_nx vs es))) =
    Ok [("A", "B"); ("A", "C"); ("B", "A"); ("B", "C"); ("C", "B"); ("C", "A")].
Proof. split; vm_compute; reflexivity. Qed.

(** False: every link has an edge with its length.  Of two links between the same places
    only the last is kept, even if it is the longer one. *)
Theorem C92_parallel_refuted : ~ (forall vs es a b d, NoDup vs -> (forall a b d, In (a, b, d) es -> In a vs /\ In b vs) ->
  In (a, b, d) es -> has_weight (graph_nx vs es) a b (Qtrunc d)).
Proof. exact parallel_false. Qed.
Print Assumptions C92_parallel_refuted.
