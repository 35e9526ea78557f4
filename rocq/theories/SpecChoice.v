(** * SpecChoice: weighted choice and route selection, specified without reference to
    the code *)

From Verif Require Import Base.
Local Open Scope Q_scope.

(** Sum of the first [n] weights *)
Definition before (n : nat) (ws : list Q) : Q := sumQ (firstn n ws).

(** Draw [u] of [0,1) falls into the share of option [i]. *)
Definition share (ws : list Q) (i : nat) (u : Q) : Prop :=
  before i ws <= u * sumQ ws /\ u * sumQ ws < before (S i) ws.

(** The next uniform draw *)
Definition next_draw (g : rng) : Q := g_u g (g_i g).

(** [m] is the largest element of [ws]. *)
Definition is_max (m : Q) (ws : list Q) : Prop := In m ws /\ forall w, In w ws -> w <= m.
