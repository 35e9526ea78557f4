(** * SpecExchange: vocabulary of C77 (two simulations that exchange people)

    [coupled], [says], [sends], [plain], [not_road], [declared] and [at_interval] are in
    SpecCoupling.v, [people], [people_in] in SpecParallel.v. *)

From Verif Require Import Base State Flee Api SpecAgents Pflee ParApi SpecParallel Coupling SpecCoupling.
Local Open Scope string_scope.
Local Open Scope list_scope.

(** Parallel run [st] on [n] processes takes part in a coupling with locations [cp]: they
    were declared on a process with the locations of this run, whose names all differ, do
    not look like roads, and can be written into a table; every process knows the head
    counts of the whole run. *)
Record takes_part (o : oracle) (n : nat) (cp : coupling) (st : list (eco * rng)) : Prop := {
  tp_some : (0 < n)%nat;
  tp_run : preachable o n st;
  tp_declared : exists e1 e0, declared e1 cp /\ In e0 (map fst st) /\
    map (fun l => sval (l_name l)) (e_locations e0) = map (fun l => sval (l_name l)) (e_locations e1) /\
    NoDup (map (fun l => sval (l_name l)) (e_locations e1)) /\
    (forall l, In l (e_locations e1) -> not_road (sval (l_name l)));
  tp_names : forall i name dir, coupled cp i name dir -> plain name;
  tp_differ : forall i j name d d', coupled cp i name d -> coupled cp j name d' -> i = j;
  tp_counts : forall e i l, In e (map fst st) -> nth_error (e_locations e) i = Some l -> l_numAgents l = people_in st i }.

(** What leaves the first simulation enters the second one: the outgoing names of [cpA] are
    the incoming names of [cpB]. *)
Definition leads_to (cpA cpB : coupling) : Prop := forall name,
  (exists i dir, coupled cpA i name dir /\ says "out" dir) <-> (exists i dir, coupled cpB i name dir /\ says "in" dir).

(** Number of people in coupled locations that are not outgoing *)
Definition stranded (st : list (eco * rng)) (cp : coupling) : Z :=
  sumZ (map (fun row => people_in st (fst row))
    (filter (fun row => negb (str_in "out" (snd row))) (combine (cp_ids cp) (cp_directions cp)))).

(** [cp'] has, besides the locations of [cp], exactly the locations whose names are among
    [names], that satisfy [which] and are not in [cp] yet; each under its own name, with
    [direction]. *)
Definition adds_locations (which : location -> Prop) (direction : string) (names : list string) (e : eco) (cp cp' : coupling) : Prop :=
  forall i name d, coupled cp' i name d <->
    coupled cp i name d \/
    (d = direction /\ In name names /\ ~ In name (cp_locations cp) /\
     exists l, nth_error (e_locations e) i = Some l /\ sval (l_name l) = name /\ which l).
