(** * SpecAgents: where agents are

    Used in the statements about head counts. *)

From Verif Require Import Base State.

Definition in_location (i : nat) (a : agent) : bool :=
  match a_location a with PLoc j => Nat.eqb j i | _ => false end.
Definition on_link (k : nat) (a : agent) : bool :=
  match a_location a with PLink j => Nat.eqb j k | _ => false end.
(** Deactivated while in location [i] *)
Definition left_from (i : nat) (a : agent) : bool :=
  match a_location a with PGone j => Nat.eqb j i | _ => false end.
Definition deactivated (a : agent) : bool :=
  match a_location a with PGone _ => true | _ => false end.

(** Number of agents satisfying [f] *)
Definition how_many (f : agent -> bool) (l : list agent) : Z :=
  Z.of_nat (List.length (filter f l)).

(** An agent that has just been added to location [i] with attributes [attrs]: at home and
    active, not travelling, with no plan and nothing travelled, one place (its home) on its
    list of places. *)
Definition newcomer (i : nat) (attrs : dict) : agent := {|
  a_location := PLoc i;
  a_home_location := i;
  a_timesteps_since_departure := 0%Z;
  a_places_travelled := 1%Z;
  a_recent_travel_distance := 0%Q;
  a_distance_moved_this_timestep := 0%Q;
  a_travelling := false;
  a_distance_travelled_on_link := 0%Q;
  a_attributes := attrs;
  a_route := Some [];
  a_distance_travelled := 0%Q;
  a_locations_visited := [] |}.
