(** * SpecZones: camps, conflict zones, spawning, specified without the code *)

From Verif Require Import Base State Crawling Flee.
Local Open Scope Q_scope.

(** What a location is: everything except head counts, links, routes, scores and the buffer
    of arrivals.  (Name, region, country, coordinates, capacity, population, type, conflict
    level, move chance, start of the conflict, number of agents spawned, attributes.) *)
Definition profile (l : location) : location :=
  up_l_links (fun _ => []) (up_l_closed_links (fun _ => []) (up_l_routes (fun _ => [])
    (up_l_major_routes (fun _ => []) (up_l_numAgents (fun _ => 0%Z) (up_l_numAgentsOnRank (fun _ => 0%Z)
      (up_l_score0 (fun _ => 1%Q) (up_l_score1 (fun _ => 1%Q) (up_l_incoming_journey_lengths (fun _ => []) l)))))))).

(** No location becomes another kind of location. *)
Definition same_profiles (e e' : eco) : Prop :=
  map profile (e_locations e') = map profile (e_locations e).

(** Between [e] and [e'] only location [i] differs; it was [l] and is [l']. *)
Definition only_location (i : nat) (l l' : location) (e e' : eco) : Prop :=
  nth_error (e_locations e) i = Some l /\ nth_error (e_locations e') i = Some l' /\
  (forall j, j <> i -> nth_error (e_locations e') j = nth_error (e_locations e) j) /\
  e' = up_e_locations (fun _ => e_locations e') e.

(** A location without its type, conflict level and move chance *)
Definition untyped (l : location) : location :=
  up_l_camp (fun _ => false) (up_l_idpcamp (fun _ => false) (up_l_town (fun _ => false)
    (up_l_forward (fun _ => false) (up_l_marker (fun _ => false) (up_l_flood_zone (fun _ => false)
      (up_l_conflict (fun _ => 0%Q) (up_l_movechance (fun _ => 0%Q) l))))))).

(** A location without conflict level, move chance, town mark and start of the conflict *)
Definition unfought (l : location) : location :=
  up_l_conflict (fun _ => 0%Q) (up_l_movechance (fun _ => 0%Q) (up_l_town (fun _ => false)
    (up_l_time_of_conflict (fun _ => 0%Z) l))).

(** The decay factor of a conflict that started [t] days ago: entry number [t / interval]
    of the list, or the last one. *)
Definition decay_after (S : settings) (t : Z) : Q :=
  match s_conflict_spawn_decay S with
  | None | Some [] => 1
  | Some l => nth (Z.to_nat (Z.min (t / s_conflict_spawn_decay_interval S) (Z.of_nat (List.length l) - 1))) l 0
  end.
(** The settings make sense: decay needs a positive interval. *)
Definition decay_ok (S : settings) : Prop :=
  match s_conflict_spawn_decay S with
  | None | Some [] => True
  | Some _ => (0 < s_conflict_spawn_decay_interval S)%Z
  end.

(** The weight of a location when choosing where agents appear *)
Definition weight (S : settings) (day : Z) (l : location) : Q :=
  if s_conflict_driven_spawning S then 0
  else if Qltb 0 (l_conflict l)
  then inject_Z (l_pop l) * l_conflict l * decay_after S (day - l_time_of_conflict l)
  else 0.
Definition weights_current (S : settings) (e : eco) : Prop :=
  Forall2 Qeq (e_spawn_weights e) (map (weight S (e_time e)) (e_locations e)).

(** Location [i] is the first one called [name]. *)
Definition first_named (e : eco) (name : string) (i : nat) (l : location) : Prop :=
  nth_error (e_locations e) i = Some l /\ sval (l_name l) = name /\
  forall j m, (j < i)%nat -> nth_error (e_locations e) j = Some m -> sval (l_name m) <> name.
