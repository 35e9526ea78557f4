(** * PropertiesExchange: C77

    Two coupled simulations exchange people.  Vocabulary: SpecExchange.v; that of coupled
    locations is in SpecCoupling.v, that of parallel runs in SpecParallel.v. *)

From Verif Require Import Base State Flee Api SpecHistory Pflee ParApi SpecParallel Coupling SpecCoupling
  Defaults ExampleRun ParallelWitness CouplingText CouplingRun CouplingWitness SpecExchange ExchangeProofs GhostProofs ExchangeWitness.
Local Open Scope string_scope.
Local Open Scope list_scope.
Local Opaque prun run.

(** C77. Two parallel runs couple at the same time; each reads the table that a process of the
    other one wrote.  Nobody is created, and exactly the people in coupled locations that
    are not outgoing are lost. *)
Theorem C77_total : forall oA nA cpA stA eA textA stA' SA latA oB nB cpB stB eB textB stB' SB latB time,
  takes_part oA nA cpA stA -> takes_part oB nB cpB stB -> leads_to cpA cpB -> leads_to cpB cpA ->
  at_interval time cpA -> at_interval time cpB ->
  In eA (map fst stA) -> output_csv eA cpA = Ok textA -> In eB (map fst stB) -> output_csv eB cpB = Ok textB ->
  couple oA SA latA time [textB] cpA stA = Ok stA' -> couple oB SB latB time [textA] cpB stB = Ok stB' ->
  (people stA' + people stB' + stranded stA cpA + stranded stB cpB = people stA + people stB)%Z.
Proof. exact exchange_total. Qed.
Print Assumptions C77_total.

(** Hypotheses met: three people in the first run, five in the second one; two and one of
    the first are sent away, one and four of the second. *)
Example C77_example :
  takes_part ex_oracle 2 sender_cp (par_end two_one) /\ takes_part ex_oracle 2 other_cp (par_end (other_prog false)) /\
  leads_to sender_cp other_cp /\ leads_to other_cp sender_cp /\ at_interval 0 sender_cp /\ at_interval 0 other_cp /\
  In sender (map fst (par_end two_one)) /\ output_csv sender sender_cp = Ok sender_text /\
  In (other false) (map fst (par_end (other_prog false))) /\ output_csv (other false) other_cp = Ok (other_text false) /\
  couple ex_oracle par_S HighLatency 0 [other_text false] sender_cp (par_end two_one) = Ok (sender_after false) /\
  couple ex_oracle par_S HighLatency 0 [sender_text] other_cp (par_end (other_prog false)) = Ok (other_after false) /\
  sender_text = ("east,2" ++ lf ++ "west,1" ++ lf)%string /\ other_text false = ("east,1" ++ lf ++ "south,4" ++ lf)%string /\
  (people (par_end two_one), people (par_end (other_prog false)), people (sender_after false), people (other_after false)) = (3, 5, 5, 3)%Z.
Proof.
  split; [exact sender_takes|]. split; [apply other_takes|]. split; [exact sender_leads|]. split; [exact other_leads|].
  split; [exact sender_at|]. split; [exact other_at|]. split; [exact sender_in|]. split; [exact sender_writes|].
  split; [apply other_in|]. split; [apply other_writes|]. split; [apply sender_couples|]. split; [apply other_couples|].
  split; [vm_compute; reflexivity|]. split; vm_compute; reflexivity.
Qed.

(** If the coupled locations that are not outgoing are empty on both sides, the number of
    people in the two simulations together stays the same. *)
Theorem C77_conserved : forall oA nA cpA stA eA textA stA' SA latA oB nB cpB stB eB textB stB' SB latB time,
  takes_part oA nA cpA stA -> takes_part oB nB cpB stB -> leads_to cpA cpB -> leads_to cpB cpA ->
  at_interval time cpA -> at_interval time cpB ->
  In eA (map fst stA) -> output_csv eA cpA = Ok textA -> In eB (map fst stB) -> output_csv eB cpB = Ok textB ->
  couple oA SA latA time [textB] cpA stA = Ok stA' -> couple oB SB latB time [textA] cpB stB = Ok stB' ->
  (forall i name dir, coupled cpA i name dir -> ~ says "out" dir -> people_in stA i = 0%Z) ->
  (forall i name dir, coupled cpB i name dir -> ~ says "out" dir -> people_in stB i = 0%Z) ->
  (people stA' + people stB' = people stA + people stB)%Z.
Proof. exact exchange_conserved. Qed.
Print Assumptions C77_conserved.

Example C77_conserved_example :
  (forall i name dir, coupled sender_cp i name dir -> ~ says "out" dir -> people_in (par_end two_one) i = 0%Z) /\
  (forall i name dir, coupled other_cp i name dir -> ~ says "out" dir -> people_in (par_end (other_prog false)) i = 0%Z) /\
  map (people_in (par_end two_one)) [0; 1; 2]%nat = [2; 1; 0]%Z /\
  map (people_in (par_end (other_prog false))) [0; 1; 2]%nat = [1; 0; 4]%Z.
Proof. exact nobody_stranded. Qed.

(** Without that condition people are lost: three people are in a location where the second
    simulation only receives; after the exchange they are in neither of the two. *)
Theorem C77_stranded_refuted : exists oA nA cpA stA eA textA stA' SA latA oB nB cpB stB eB textB stB' SB latB time,
  takes_part oA nA cpA stA /\ takes_part oB nB cpB stB /\ leads_to cpA cpB /\ leads_to cpB cpA /\
  at_interval time cpA /\ at_interval time cpB /\
  In eA (map fst stA) /\ output_csv eA cpA = Ok textA /\ In eB (map fst stB) /\ output_csv eB cpB = Ok textB /\
  couple oA SA latA time [textB] cpA stA = Ok stA' /\ couple oB SB latB time [textA] cpB stB = Ok stB' /\
  (people stA + people stB = 11 /\ people stA' + people stB' = 8)%Z.
Proof. exact people_lost. Qed.
Print Assumptions C77_stranded_refuted.

(** The locations that are coupled for a list of conflict locations: of those that have no
    routes, as outgoing ones (the simulation of the larger region) … *)
Theorem C77_ghosts : forall names e cp cp', NoDup (map (fun l => sval (l_name l)) (e_locations e)) -> declared e cp ->
  add_ghosts names e cp = Ok cp' -> declared e cp' /\ adds_locations (fun l => l_links l = []) "out" names e cp cp'.
Proof. exact ghosts_added. Qed.
Print Assumptions C77_ghosts.

(** … and all of them, as incoming ones (the simulation of the smaller region).  Neither
    fails. *)
Theorem C77_conflicts : forall names e cp cp', NoDup (map (fun l => sval (l_name l)) (e_locations e)) -> declared e cp ->
  add_micro_conflicts names e cp = Ok cp' -> declared e cp' /\ adds_locations (fun _ => True) "in" names e cp cp'.
Proof. exact conflicts_added. Qed.
Print Assumptions C77_conflicts.

Theorem C77_no_failure : forall names e cp, declared e cp ->
  (exists cp', add_ghosts names e cp = Ok cp') /\ (exists cp', add_micro_conflicts names e cp = Ok cp').
Proof. exact never_fails. Qed.
Print Assumptions C77_no_failure.

(** The first run: A and B have a route out of them, C has none, so that only C is added as a ghost. *)
Example C77_ghosts_example :
  NoDup (map (fun l => sval (l_name l)) (e_locations sender)) /\ declared sender sender_cp /\ declared sender no_coupling /\
  map (fun l => List.length (l_links l)) (e_locations sender) = [1; 1; 0]%nat /\
  rmap cp_names (add_micro_conflicts ["C"; "nowhere"; "A"] sender no_coupling) = Ok ["C"; "A"] /\
  rmap cp_names (add_ghosts ["C"; "nowhere"; "A"] sender no_coupling) = Ok ["C"].
Proof.
  split; [vm_compute; repeat constructor; cbn; intuition discriminate|]. split; [apply cp0_declared; vm_compute; reflexivity|].
  split; [constructor|]. split; [vm_compute; reflexivity|]. split; vm_compute; reflexivity.
Qed.
