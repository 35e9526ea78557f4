(** * SpecRoutes: paths of open links, specified without reference to the route search *)

From Verif Require Import Base State.
Local Open Scope Q_scope.

Definition name_at (e : eco) (i : nat) : string :=
  match nth_error (e_locations e) i with Some l => sval (l_name l) | None => "" end.
Definition is_marker (e : eco) (i : nat) : bool :=
  match nth_error (e_locations e) i with Some l => l_marker l | None => false end.

(** [open_link e i ki k]: link object [k], number [ki], is an open link of location [i]. *)
Definition open_link (e : eco) (i ki : nat) (k : link) : Prop :=
  exists l, nth_error (e_locations e) i = Some l /\ In ki (l_links l) /\
            nth_error (e_links e) ki = Some k.

(** [path e i stops d]: a non-empty sequence of open links leads from location [i]
    through the locations [stops]; its length is [d]. *)
Inductive path (e : eco) : nat -> list nat -> Q -> Prop :=
| path_one i ki k : open_link e i ki k -> path e i [k_endpoint k] (k_distance k)
| path_more i ki k stops d : open_link e i ki k -> path e (k_endpoint k) stops d ->
    path e i (k_endpoint k :: stops) (k_distance k + d).

Definition stop_names (e : eco) (stops : list nat) : list string := map (name_at e) stops.

(** Number of stops that are not markers *)
Definition real_stops (e : eco) (stops : list nat) : Z :=
  Z.of_nat (List.length (filter (fun i => negb (is_marker e i)) stops)).

Definition last_stop (stops : list nat) : nat := List.last stops 0%nat.

(** No location has an open link to a location of its own name. *)
Definition no_self_links (e : eco) : Prop :=
  forall i ki k, open_link e i ki k -> name_at e (k_endpoint k) <> name_at e i.

(** [room S l c]: the capacity multiplier of location [l] is [c]: 1 if the scaled capacity is
    below one (unlimited) or the agents do not exceed the buffered part of it, 0 from the
    capacity on and linear in between. *)
Definition room (S : settings) (l : location) (c : Q) : Prop :=
  let cap := inject_Z (l_capacity l) * s_CapacityScaling S in
  let buffer := s_CapacityBuffer S * cap in
  let n := inject_Z (l_numAgents l) in
  c == if Qltb cap 1 then 1 else if Qleb n buffer then 1 else if Qleb cap n then 0
       else (cap - n) / (cap - buffer).

(** [found_as e n i]: location [i] is the last one of name [n]; a name no location has
    stands for location 0. *)
Definition found_as (e : eco) (n : string) (i : nat) : Prop :=
  (exists l, nth_error (e_locations e) i = Some l /\ sval (l_name l) = n /\
     forall j k, nth_error (e_locations e) j = Some k -> sval (l_name k) = n -> (j <= i)%nat) \/
  ((forall l, In l (e_locations e) -> sval (l_name l) <> n) /\ i = 0%nat).
