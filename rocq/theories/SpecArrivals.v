(** * SpecArrivals: the trips of one day, specified without the code *)

From Verif Require Import Base State Flee SpecRoutes.

(** [tour e p ends back p']: an agent at [p] may be at [p'] at the end of the day, having
    ended trips in the locations [ends], in that order, and, if [back] is 1, a last one by
    being sent back to the start of a closed link. *)
Inductive tour (e : eco) : pos -> list nat -> nat -> pos -> Prop :=
| tour_stop p : tour e p [] 0 p
| tour_leave i ki k ends back p' : open_link e i ki k -> tour e (PLink ki) ends back p' ->
    tour e (PLoc i) ends back p'
| tour_back ki k : nth_error (e_links e) ki = Some k -> k_closed k = true ->
    tour e (PLink ki) [] 1 (PLoc (k_startpoint k))
| tour_arrive ki k ends back p' : nth_error (e_links e) ki = Some k -> k_closed k = false ->
    tour e (PLoc (k_endpoint k)) ends back p' ->
    tour e (PLink ki) (k_endpoint k :: ends) back p'.

(** Location number [i] is a camp. *)
Definition camp_at (e : eco) (i : nat) : bool :=
  match nth_error (e_locations e) i with Some l => l_camp l | None => false end.

(** The agents that arrived in camps, an agent once for each arrival: [tours n] lists the
    locations in which agent number [n] ended trips. *)
Definition camp_arrivals (e : eco) (tours : nat -> list nat) : list agent :=
  flat_map (fun na => repeat (snd na) (List.length (filter (camp_at e) (tours (fst na)))))
           (combine (seq 0 (List.length (e_agents e))) (e_agents e)).

(** The mean of whole numbers, 0 for none *)
Definition mean (l : list Z) : Q :=
  match l with [] => 0 | _ => inject_Z (fold_right Z.add 0%Z l) / inject_Z (Z.of_nat (List.length l)) end.
