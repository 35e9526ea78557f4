(** * SpecGraph: the graph of the network, specified without the code *)

From Verif Require Import Base State SpecClosures.
Local Open Scope string_scope.
Local Open Scope list_scope.

(** The name of location number [i] *)
Definition name_at (e : eco) (i : nat) : string :=
  match nth_error (e_locations e) i with Some l => sval (l_name l) | None => "" end.

(** The open roads, location by location: from, to, length *)
Definition graph_edges (e : eco) : list (string * string * Q) :=
  flat_map (fun i => map (fun k => (name_at e i, name_at e (k_endpoint k), k_distance k)) (opens e i))
           (seq 0 (List.length (e_locations e))).
