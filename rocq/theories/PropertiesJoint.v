(** * PropertiesJoint: C93

    Two simulations exchange people through files during a whole run.  The vocabulary is
    in SpecJoint.v ([simulation], [program_of], [lives], [arrivals], [left_behind]),
    SpecExchange.v ([leads_to]) and SpecTurns.v ([side_by_side], [careful]). *)

From Verif Require Import Base State Flee Api Pflee ParApi SpecParallel Coupling SpecCoupling SpecExchange CouplingFiles
  SpecTurns SpecJoint JointProofs TurnsWitness JointWitness.
Local Open Scope string_scope.
Local Open Scope list_scope.
Local Open Scope nat_scope.
Local Opaque execute.

(** C93. Whatever the order in which the two programs get on, the people at the end are
    those of the start and those who arrived, without those who were in places that are
    only incoming when these were cleared: nobody is in both simulations or lost between
    them. *)
Theorem C93_total : forall T k a b st evening_a evening_b schedule xa xb, s_name a <> s_name b -> k <> 0%Z ->
  lives T k a (fun t => st t 0) evening_a -> lives T k b (fun t => st t 1) evening_b ->
  leads_to (s_coupling a) (s_coupling b) -> leads_to (s_coupling b) (s_coupling a) ->
  side_by_side T [program_of a b; program_of b a] st ->
  careful T [program_of a b; program_of b a] schedule (at_start [st 0 0; st 0 1], no_files) ->
  fst (execute T [program_of a b; program_of b a] schedule (at_start [st 0 0; st 0 1], no_files)) = [Finished xa; Finished xb] ->
  (people xa + people xb + left_behind T k a evening_a + left_behind T k b evening_b =
   people (st 0%nat 0%nat) + people (st 0%nat 1%nat) + arrivals T (fun t => st t 0%nat) evening_a + arrivals T (fun t => st t 1%nat) evening_b)%Z.
Proof. exact (fun T k a b st ea eb schedule xa xb D K LA LB AB BA SS => joint_total T k a b st ea eb D K LA LB AB BA SS schedule xa xb). Qed.
Print Assumptions C93_total.

(** Hypotheses met: two days, each simulation on two processes; of 3 + 5 people and 2 + 2
    arrivals, 4 + 3 are there at the end and 4 + 1 were left behind. *)
Example C93_case : s_name region <> s_name district /\
  lives 2 1 region (fun t => pair_st t 0) region_evening /\ lives 2 1 district (fun t => pair_st t 1) district_evening /\
  leads_to (s_coupling region) (s_coupling district) /\ leads_to (s_coupling district) (s_coupling region) /\
  side_by_side 2 [program_of region district; program_of district region] pair_st /\
  careful 2 [program_of region district; program_of district region] in_turns (at_start [pair_st 0 0; pair_st 0 1], no_files) /\
  fst (execute 2 [program_of region district; program_of district region] in_turns (at_start [pair_st 0 0; pair_st 0 1], no_files)) =
    [Finished (pair_st 2 0); Finished (pair_st 2 1)] /\
  (people (pair_st 0 0), people (pair_st 0 1), arrivals 2 (fun t => pair_st t 0) region_evening, arrivals 2 (fun t => pair_st t 1) district_evening,
   left_behind 2 1 region region_evening, left_behind 2 1 district district_evening, people (pair_st 2 0), people (pair_st 2 1)) =
  (3, 5, 2, 2, 4, 1, 4, 3)%Z.
Proof. exact joint_case. Qed.

(** Coupling never makes people. *)
Theorem C93_at_most : forall T k a b st evening_a evening_b schedule xa xb, s_name a <> s_name b -> k <> 0%Z ->
  lives T k a (fun t => st t 0) evening_a -> lives T k b (fun t => st t 1) evening_b ->
  leads_to (s_coupling a) (s_coupling b) -> leads_to (s_coupling b) (s_coupling a) ->
  side_by_side T [program_of a b; program_of b a] st ->
  careful T [program_of a b; program_of b a] schedule (at_start [st 0 0; st 0 1], no_files) ->
  fst (execute T [program_of a b; program_of b a] schedule (at_start [st 0 0; st 0 1], no_files)) = [Finished xa; Finished xb] ->
  (people xa + people xb <=
   people (st 0%nat 0%nat) + people (st 0%nat 1%nat) + arrivals T (fun t => st t 0%nat) evening_a + arrivals T (fun t => st t 1%nat) evening_b)%Z.
Proof. exact (fun T k a b st ea eb schedule xa xb D K LA LB AB BA SS => joint_at_most T k a b st ea eb D K LA LB AB BA SS schedule xa xb). Qed.
Print Assumptions C93_at_most.

(** If whoever arrives in a place that is only incoming has moved on by the next exchange,
    the number of people of both simulations is kept. *)
Theorem C93_conserved : forall T k a b st evening_a evening_b schedule xa xb, s_name a <> s_name b -> k <> 0%Z ->
  lives T k a (fun t => st t 0) evening_a -> lives T k b (fun t => st t 1) evening_b ->
  leads_to (s_coupling a) (s_coupling b) -> leads_to (s_coupling b) (s_coupling a) ->
  side_by_side T [program_of a b; program_of b a] st ->
  (forall t i name dir, t < T -> (k | Z.of_nat t)%Z -> coupled (s_coupling a) i name dir -> ~ says "out" dir -> people_in (evening_a t) i = 0%Z) ->
  (forall t i name dir, t < T -> (k | Z.of_nat t)%Z -> coupled (s_coupling b) i name dir -> ~ says "out" dir -> people_in (evening_b t) i = 0%Z) ->
  careful T [program_of a b; program_of b a] schedule (at_start [st 0 0; st 0 1], no_files) ->
  fst (execute T [program_of a b; program_of b a] schedule (at_start [st 0 0; st 0 1], no_files)) = [Finished xa; Finished xb] ->
  (people xa + people xb =
   people (st 0%nat 0%nat) + people (st 0%nat 1%nat) + arrivals T (fun t => st t 0%nat) evening_a + arrivals T (fun t => st t 1%nat) evening_b)%Z.
Proof. exact (fun T k a b st ea eb schedule xa xb D K LA LB AB BA SS => joint_conserved T k a b st ea eb D K LA LB AB BA SS schedule xa xb). Qed.
Print Assumptions C93_conserved.

(** Hypotheses met: the first day, after which there are 5 + 3 people instead of 3 + 5 *)
Example C93_conserved_case : s_name region <> s_name district /\
  lives 1 1 region (fun t => pair_st t 0) region_evening /\ lives 1 1 district (fun t => pair_st t 1) district_evening /\
  leads_to (s_coupling region) (s_coupling district) /\ leads_to (s_coupling district) (s_coupling region) /\
  side_by_side 1 [program_of region district; program_of district region] pair_st /\
  (forall t i name dir, t < 1 -> (1 | Z.of_nat t)%Z -> coupled (s_coupling region) i name dir -> ~ says "out" dir -> people_in (region_evening t) i = 0%Z) /\
  (forall t i name dir, t < 1 -> (1 | Z.of_nat t)%Z -> coupled (s_coupling district) i name dir -> ~ says "out" dir -> people_in (district_evening t) i = 0%Z) /\
  careful 1 [program_of region district; program_of district region] in_turns (at_start [pair_st 0 0; pair_st 0 1], no_files) /\
  fst (execute 1 [program_of region district; program_of district region] in_turns (at_start [pair_st 0 0; pair_st 0 1], no_files)) =
    [Finished (pair_st 1 0); Finished (pair_st 1 1)] /\
  (people (pair_st 0 0), people (pair_st 0 1), people (pair_st 1 0), people (pair_st 1 1)) = (3, 5, 5, 3)%Z.
Proof. exact first_case. Qed.

(** Otherwise people vanish. *)
Theorem C93_vanish_refuted : exists T k a b st evening_a evening_b schedule xa xb, s_name a <> s_name b /\ k <> 0%Z /\
  lives T k a (fun t => st t 0) evening_a /\ lives T k b (fun t => st t 1) evening_b /\
  leads_to (s_coupling a) (s_coupling b) /\ leads_to (s_coupling b) (s_coupling a) /\
  side_by_side T [program_of a b; program_of b a] st /\
  careful T [program_of a b; program_of b a] schedule (at_start [st 0 0; st 0 1], no_files) /\
  fst (execute T [program_of a b; program_of b a] schedule (at_start [st 0 0; st 0 1], no_files)) = [Finished xa; Finished xb] /\
  (people (st 0%nat 0%nat) + people (st 0%nat 1%nat) + arrivals T (fun t => st t 0%nat) evening_a + arrivals T (fun t => st t 1%nat) evening_b = 12 /\
   people xa + people xb = 7)%Z.
Proof. exact people_vanish. Qed.
Print Assumptions C93_vanish_refuted.
