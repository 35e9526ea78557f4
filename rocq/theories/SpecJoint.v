(** * SpecJoint: vocabulary of C93 (a whole run of two simulations that exchange people)

    [takes_part], [leads_to] and [stranded] are in SpecExchange.v, [people] in
    SpecParallel.v, [side_by_side] and [careful] in SpecTurns.v. *)

From Verif Require Import Base State Flee Api SpecAgents Pflee ParApi SpecParallel Coupling SpecCoupling SpecExchange CouplingFiles.
Local Open Scope list_scope.

(** A simulation that is to be coupled: the name of its channel, the number of its
    processes, its settings, its coupled locations and what it does on a day *)
Record simulation : Type := Simulation {
  s_name : string; s_procs : nat; s_oracle : oracle; s_settings : settings; s_latency : latency;
  s_coupling : coupling; s_day : nat -> list (eco * rng) -> res (list (eco * rng)) }.

(** The program of [a] when it is coupled with [b] *)
Definition program_of (a b : simulation) : member (list (eco * rng)) :=
  flee_member (s_name a) 0 (s_name b) 1 (s_oracle a) (s_settings a) (s_latency a) (s_coupling a) (s_day a).

(** [a], which begins day [t] in state [start t], is in state [evening t] after the work of
    that day; it couples every [k] days and is then fit for an exchange. *)
Record lives (T : nat) (k : Z) (a : simulation) (start evening : nat -> list (eco * rng)) : Prop := {
  li_every : nth_error (cp_intervals (s_coupling a)) 0 = Some k;
  li_day : forall t, (t < T)%nat -> s_day a t (start t) = Ok (evening t);
  li_fit : forall t, (t < T)%nat -> (k | Z.of_nat t)%Z -> takes_part (s_oracle a) (s_procs a) (s_coupling a) (evening t) }.

(** Number of people that the work of the days adds *)
Definition arrivals (T : nat) (start evening : nat -> list (eco * rng)) : Z :=
  sumZ (map (fun t => people (evening t) - people (start t))%Z (seq 0 T)).

(** Number of people that are in places which are only incoming when those are cleared *)
Definition left_behind (T : nat) (k : Z) (a : simulation) (evening : nat -> list (eco * rng)) : Z :=
  sumZ (map (fun t => if (Z.of_nat t mod k =? 0)%Z then stranded (evening t) (s_coupling a) else 0%Z) (seq 0 T)).
