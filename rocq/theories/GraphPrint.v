(** * GraphPrint: flee/postprocessing/analyze_graph.py

    The two functions that show an exported graph.  Not modelled: the drawing of the second
    one; of a networkx graph only its nodes, its edges and the attribute "weight". *)

From Verif Require Import Base.
Local Open Scope string_scope.
Local Open Scope list_scope.

(** An edge as export_graph returns it: from, to, length *)
Definition edge : Type := (string * string * Q).

(** The lines that print_graph prints *)
Inductive shown : Type :=
| Vertex (name : string)
| Arrow (to : string) (dist : option Q).

(** print_graph (lines 5-24) *)
Definition print_graph (vs : list string) (es : list edge) (print_dist : bool) : list shown :=
  flat_map (fun v =>
    Vertex v ::
    map (fun e => Arrow (snd (fst e)) (if print_dist then Some (snd e) else None))
        (filter (fun e => String.eqb (fst (fst e)) v) es)) vs.

(** A networkx DiGraph: for each node, in order, its neighbours and the weights *)
Definition digraph : Type := list (string * list (string * Z)).

(** [G.add_node(v)]: nothing happens if the node is there. *)
Definition add_node (v : string) (G : digraph) : digraph :=
  match dict_get v G with Some _ => G | None => G ++ [(v, [])] end.
(** [G.add_edge(u, v, weight=w)]: adds the nodes if needed; an edge that is there gets the
    new weight. *)
Definition add_edge (u v : string) (w : Z) (G : digraph) : digraph :=
  let G1 := add_node v (add_node u G) in
  match dict_get u G1 with Some adj => dict_set u (dict_set v w adj) G1 | None => G1 end.

(** print_graph_nx (lines 27-49): the graph it makes; all edges are added once for each
    vertex. *)
Definition graph_nx (vs : list string) (es : list edge) : digraph :=
  let G0 := fold_left (fun G v => add_node v G) vs [] in
  fold_left (fun G _ => fold_left (fun G e => add_edge (fst (fst e)) (snd (fst e)) (Qtrunc (snd e)) G) es G) vs G0.
(** [G.nodes()] and [G.edges()], which are printed *)
Definition nodes (G : digraph) : list string := map fst G.
Definition edges (G : digraph) : list (string * string) := flat_map (fun p => map (fun q => (fst p, fst q)) (snd p)) G.
