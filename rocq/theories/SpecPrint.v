(** * SpecPrint: vocabulary for printed graphs *)

From Verif Require Import Base GraphPrint.
Local Open Scope list_scope.

(** The graph has an edge from [a] to [b] of weight [w]. *)
Definition has_weight (G : digraph) (a b : string) (w : Z) : Prop := exists adj, In (a, adj) G /\ In (b, w) adj.

(** The last edge from [a] to [b] in the list has length [d]. *)
Definition last_edge (es : list edge) (a b : string) (d : Q) : Prop :=
  exists es1 es2, es = es1 ++ (a, b, d) :: es2 /\ forall d', ~ In (a, b, d') es2.
