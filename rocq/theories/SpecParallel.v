(** * SpecParallel: words for the statements about parallel programs

    A state of a parallel program is the list of the states of its processes. *)

From Verif Require Import Base State Flee Api SpecAgents Pflee ParApi.

(** The agents stored on process [r] *)
Definition held (st : list (eco * rng)) (r : nat) : list agent :=
  match nth_error st r with Some (e, _) => e_agents e | None => [] end.

(** Number of agents of the whole run that are in location [i] / on road [k] *)
Definition people_in (st : list (eco * rng)) (i : nat) : Z :=
  sumZ (map (fun p => how_many (in_location i) (e_agents (fst p))) st).
Definition people_on (st : list (eco * rng)) (k : nat) : Z :=
  sumZ (map (fun p => how_many (on_link k) (e_agents (fst p))) st).
(** Number of agents of the whole run *)
Definition people (st : list (eco * rng)) : Z :=
  sumZ (map (fun p => Z.of_nat (List.length (e_agents (fst p)))) st).

(** Number of agents that a call adds to the run; [None] for calls of another kind *)
Definition added_by (c : pop) : option nat :=
  match c with
  | PAddAgent _ | PInsertAgent _ => Some 1%nat
  | PInsertAgents _ n => Some (Z.to_nat n)
  | _ => None
  end.
(** A history of such calls only, adding [k] agents in total *)
Inductive adding : list (settings * pop) -> nat -> Prop :=
| adding_nil : adding [] 0
| adding_cons S c k h m : added_by c = Some k -> adding h m -> adding ((S, c) :: h) (k + m).

(** Roads that start in a location and are open, or (second) also closed ones *)
Definition listed (closed : bool) (e : eco) (k : nat) : Prop :=
  exists i l, nth_error (e_locations e) i = Some l /\
    (In k (l_links l) \/ (closed = true /\ In k (l_closed_links l))).

(** The parts of a location, of a link and of an ecosystem other than head counts *)
Definition no_count (l : location) : location := up_l_numAgents (fun _ => 0%Z) l.
Definition no_kcount (k : link) : link := up_k_numAgents (fun _ => 0%Z) k.
Definition but_counts (e : eco) : eco :=
  Eco (map no_count (e_locations e)) (e_locationNames e) (map no_kcount (e_links e)) (e_dicts e)
    (e_agents e) (e_closures e) (e_time e) (e_spawn_weights e) (e_num_arrivals e)
    (e_travel_durations e) (e_agents_out e) (e_links_out e) (e_par e) (e_rank e) (e_mpi_size e) 0%Z.

(** The locations whose scores process [r] of [n] computes: from, and how many
    (pflee.py 817-823 state this as an interval) *)
Definition covers (nloc n r : Z) (i : Z) : Prop :=
  (part_offset nloc n r <= i < part_offset nloc n r + part_count nloc n r)%Z.

(** Calls that neither close nor reopen links and store no closures *)
Definition opens_closes_nothing (c : pop) : bool :=
  match c with
  | PEach c =>
      match c with
      | ORemoveLink _ _ _ _ | OReopenLink _ _ _ | OCloseLocation _ _ _ | OReopenLocation _ _ _
      | OCloseBorder _ _ _ _ | OReopenBorder _ _ _ _ => false
      | OSetClosures cs => match cs with [] => true | _ => false end
      | _ => true
      end
  | _ => true
  end.
Definition clears (c : pop) : bool := match c with PClearLocations _ _ => true | _ => false end.

(** The same program with the other parallel mode *)
Definition low_latency (c : pop) : pop :=
  match c with
  | PClearLocations _ ns => PClearLocations LowLatency ns
  | PUpdateNumAgents _ b => PUpdateNumAgents LowLatency b
  | PEvolve m _ f => PEvolve m LowLatency f
  | c => c
  end.
