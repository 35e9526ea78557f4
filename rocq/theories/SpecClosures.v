(** * SpecClosures: the road network of an ecosystem, specified without the code

    The open and the closed roads of each location, as lists of link records. *)

From Verif Require Import Base State Crawling Flee SpecRoutes.

(** A link record without its present head counts and without the closed mark: end points,
    length, cumulative traffic and attributes are kept. *)
Definition norm (k : link) : link :=
  up_k_numAgents (fun _ => 0%Z) (up_k_numAgentsOnRank (fun _ => 0%Z) (up_k_closed (fun _ => false) k)).

(** The records of the link objects with the given numbers *)
Definition roads (e : eco) (ids : list nat) : list link :=
  flat_map (fun ki => match nth_error (e_links e) ki with Some k => [norm k] | None => [] end) ids.

(** The open and the closed roads that start in location [i] *)
Definition opens (e : eco) (i : nat) : list link :=
  match nth_error (e_locations e) i with Some l => roads e (l_links l) | None => [] end.
Definition closeds (e : eco) (i : nat) : list link :=
  match nth_error (e_locations e) i with Some l => roads e (l_closed_links l) | None => [] end.

(** The road leads to a location whose name is the very object [t]. *)
Definition to_object (e : eco) (t : pystr) (k : link) : bool :=
  match nth_error (e_locations e) (k_endpoint k) with Some l => py_is (l_name l) t | None => false end.
(** The road leads to location number [j]. *)
Definition to_place (j : nat) (k : link) : bool := Nat.eqb (k_endpoint k) j.
(** The road leads to a location in the given country. *)
Definition country_at (e : eco) (i : nat) : string :=
  match nth_error (e_locations e) i with Some l => l_country l | None => "" end.
Definition to_country (e : eco) (c : string) (k : link) : bool := String.eqb (country_at e (k_endpoint k)) c.

Definition not {A} (f : A -> bool) (a : A) : bool := negb (f a).

(** Apart from the link objects and the link lists of locations nothing differs. *)
Definition same_but_links (e e' : eco) : Prop :=
  map (fun l => up_l_links (fun _ => []) (up_l_closed_links (fun _ => []) l)) (e_locations e') =
  map (fun l => up_l_links (fun _ => []) (up_l_closed_links (fun _ => []) l)) (e_locations e) /\
  e' = up_e_locations (fun _ => e_locations e') (up_e_links (fun _ => e_links e') e).

(** No two locations have the same name or the same name object. *)
Definition distinct_names (e : eco) : Prop :=
  forall i j a b, nth_error (e_locations e) i = Some a -> nth_error (e_locations e) j = Some b ->
    sval (l_name a) = sval (l_name b) \/ sid (l_name a) = sid (l_name b) -> i = j.

(** The road [k] that starts in location [i] leads from country [s] to country [d]. *)
Definition border1 (e : eco) (s d : string) (i : nat) (k : link) : bool :=
  (String.eqb (country_at e i) s && to_country e d k)%bool.
(** ... or, with [twoway], from [d] to [s]. *)
Definition crosses (e : eco) (s d : string) (twoway : bool) (i : nat) (k : link) : bool :=
  (border1 e s d i k || (twoway && border1 e d s i k))%bool.

(** Every road to location [i] has a counterpart back. *)
Definition symmetric_at (e : eco) (i : nat) : Prop :=
  forall p k, In k (opens e p) -> to_place i k = true -> exists k', In k' (opens e i) /\ to_place p k' = true.
(** No road of location [i] leads to [i] itself. *)
Definition no_loop (e : eco) (i : nat) : Prop :=
  forall k, In k (opens e i) -> to_place i k = false.

(** The link object is in the open or the closed list of some location. *)
Definition listed (e : eco) (ki : nat) : Prop :=
  exists l, In l (e_locations e) /\ (In ki (l_links l) \/ In ki (l_closed_links l)).
(** It exists, but no location leads to it. *)
Definition off_road (e : eco) (ki : nat) : Prop := (ki < List.length (e_links e))%nat /\ ~ listed e ki.
