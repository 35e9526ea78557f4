(** * SpecHistory: kinds of calls and continuations of a history *)

From Verif Require Import Base State Flee Api.

(** [evolve()] *)
Definition is_evolve (c : op) : bool := match c with OEvolve _ => true | _ => false end.
(** [clearLocationsFromAgents(...)], the only call that removes agents *)
Definition is_clear (c : op) : bool := match c with OClearLocations _ => true | _ => false end.

(** [e'] is a state reached later in the same run as [e]. *)
Definition later (o : oracle) (e : eco) (g : rng) (e' : eco) (g' : rng) : Prop :=
  exists h, run o h e g = Ok (e', g').

(** [P] holds for the settings, the call and the state before each call of the history. *)
Fixpoint during (P : settings -> op -> eco -> Prop) (o : oracle) (h : history) (e : eco) (g : rng) : Prop :=
  match h with
  | [] => True
  | c :: h' =>
      P (fst c) (snd c) e /\
      match step o (fst c) (snd c) e g with Ok (e1, g1) => during P o h' e1 g1 | Err _ => True end
  end.

(** Number of time steps of a history *)
Definition days (h : history) : nat := List.length (filter (fun c => is_evolve (snd c)) h).
(** No call of the history removes agents. *)
Definition no_clear (h : history) : Prop := Forall (fun c => is_clear (snd c) = false) h.
