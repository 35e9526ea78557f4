(** * PropertiesParallel: C36, C37, C38, C50, C51

    The model of pflee.py is in Pflee.v, programs and reachable states in ParApi.v; the
    vocabulary ([held], [people_in], [people_on], [people], [adding], [listed], ...) is in
    SpecParallel.v. *)

From Verif Require Import Base State Flee Api Pflee ParApi SpecAgents SpecHistory SpecParallel
  Defaults ExampleRun ParFinal ParTotals ParallelWitness.
Local Open Scope string_scope.
Local Open Scope list_scope.
Local Opaque prun.

(** C36. Each call of addAgent or insertAgent stores the new agent on one process only. *)
Theorem C36_one_owner : forall o n S c args st st',
  c = PAddAgent args \/ c = PInsertAgent args -> (0 < n)%nat -> preachable o n st -> pstep o S c st = Ok st' ->
  exists r loc attrs, (r < n)%nat /\ nth_error args r = Some (loc, attrs) /\
    held st' r = held st r ++ [newcomer loc attrs] /\ (forall s, s <> r -> held st' s = held st s).
Proof. exact f_one_owner. Qed.
Print Assumptions C36_one_owner.

(** Any sequence of such calls (also insertAgents), started in any reachable state, shares
    the new agents evenly: the numbers that two processes get differ by at most one. *)
Theorem C36_balance : forall o n h k st st',
  (0 < n)%nat -> preachable o n st -> adding h k -> prun o h st = Ok st' ->
  exists new, List.length new = n /\
    (forall r l, nth_error new r = Some l -> held st' r = held st r ++ l) /\
    (forall r s l m, nth_error new r = Some l -> nth_error new s = Some m -> (List.length l <= List.length m + 1)%nat) /\
    sumZ (map (fun l => Z.of_nat (List.length l)) new) = Z.of_nat k.
Proof. exact f_balance. Qed.
Print Assumptions C36_balance.

(** A whole program, with steps between the additions, keeps the processes balanced if it
    neither closes roads nor clears locations. *)
Theorem C36_whole_run : forall o h gs st,
  (forall S c, In (S, c) h -> opens_closes_nothing c = true /\ clears c = false) ->
  prun o h (pstart gs) = Ok st ->
  forall r s, (r < List.length gs)%nat -> (s < List.length gs)%nat ->
    (List.length (held st r) <= List.length (held st s) + 1)%nat.
Proof. exact whole_run_balanced. Qed.
Print Assumptions C36_whole_run.

(** With clearing in between the same process gets every agent; with a closed road two
    agents end up on one process and none on the other. *)
Theorem C36_clearing_refuted :
  let c := PClearLocations HighLatency ["A"] in
  exists o st0 st1 st2 st3,
    preachable o 2 st0 /\ pstep o par_S add_A st0 = Ok st1 /\ pstep o par_S c st1 = Ok st2 /\
    pstep o par_S add_A st2 = Ok st3 /\
    held st0 1 = [] /\ List.length (held st1 1) = 1%nat /\ held st2 1 = [] /\ List.length (held st3 1) = 1%nat /\
    held st1 0 = [] /\ held st2 0 = [] /\ held st3 0 = [].
Proof. exact clear_unbalances. Qed.
Print Assumptions C36_clearing_refuted.
Theorem C36_closing_refuted : exists o st, preachable o 2 st /\ List.length (held st 1) = 2%nat /\ held st 0 = [].
Proof. exact closing_unbalances. Qed.
Print Assumptions C36_closing_refuted.

Example C36_example :
  preachable ex_oracle 2 (par_end []) /\
  (forall cs, cs = [add_A; add_A; PInsertAgents [1; 1]%nat 3; day LocPar] ->
    (forall S c, In (S, c) (map (pair par_S) (par_build ++ cs)) -> opens_closes_nothing c = true /\ clears c = false)) /\
  adding (map (pair par_S) [add_A; add_A; PInsertAgents [1; 1]%nat 3]) 5 /\
  is_ok (prun ex_oracle (map (pair par_S) [add_A; add_A; PInsertAgents [1; 1]%nat 3]) (par_end [])) = true /\
  map (fun r => List.length (held (par_end [add_A; add_A; PInsertAgents [1; 1]%nat 3; day LocPar]) r)) [0; 1]%nat = [2; 3]%nat.
Proof.
  split; [apply par_reachable; vm_compute; reflexivity|]. split.
  { intros cs -> S c H. apply in_map_iff in H as (x & Hx & H). injection Hx as _ <-.
    revert x H. apply Forall_forall. repeat constructor. }
  split; [change 5%nat with (1 + (1 + (3 + 0)))%nat; repeat constructor|].
  vm_compute; repeat split; reflexivity.
Qed.

(** C37. After updateNumAgents every process has, for each location and each road in the
    lists, the number of agents there on all processes together; nothing else changes but
    the total.  Roads that are in no list keep their counts.  With [closed] the closed roads
    are counted too. *)
Theorem C37_update : forall o n S lat closed st st',
  preachable o n st -> pstep o S (PUpdateNumAgents lat closed) st = Ok st' ->
  map snd st' = map snd st /\
  forall r e e', nth_error (map fst st) r = Some e -> nth_error (map fst st') r = Some e' ->
    (forall i l', nth_error (e_locations e') i = Some l' -> l_numAgents l' = people_in st i) /\
    (forall k x', listed closed e k -> nth_error (e_links e') k = Some x' -> k_numAgents x' = people_on st k) /\
    (forall k, ~ listed closed e k -> nth_error (e_links e') k = nth_error (e_links e) k) /\
    but_counts e' = but_counts e.
Proof. exact f_update. Qed.
Print Assumptions C37_update.

(** The same holds at the end of each time step, in both modes of parallelisation. *)
Theorem C37_evolve : forall o n S m lat fuel st st',
  preachable o n st -> pstep o S (PEvolve m lat fuel) st = Ok st' ->
  forall e', In e' (map fst st') ->
    (forall i l', nth_error (e_locations e') i = Some l' -> l_numAgents l' = people_in st' i) /\
    (forall k x', listed false e' k -> nth_error (e_links e') k = Some x' -> k_numAgents x' = people_on st' k).
Proof. exact f_evolve. Qed.
Print Assumptions C37_evolve.

(** As soon as there is a location, the latency mode makes no difference to any call, ... *)
Theorem C37_modes : forall o n S c d st e,
  preachable o n st -> In e (map fst st) -> e_locations e <> [] -> low_latency c = low_latency d ->
  pstep o S c st = pstep o S d st.
Proof. exact f_modes. Qed.
Print Assumptions C37_modes.
(** ... and a program that runs in some mode gives the same result in the low-latency mode. *)
Theorem C37_modes_run : forall o h gs st,
  prun o h (pstart gs) = Ok st ->
  prun o (map (fun sc => (fst sc, low_latency (snd sc))) h) (pstart gs) = Ok st.
Proof. exact f_modes_run. Qed.
Print Assumptions C37_modes_run.

(** Without locations the high-latency mode fails.  The sums are wrong for two counters:
    numIDPs adds up counts that are already global, and after a step numAgentsSpawned is
    multiplied by the number of processes. *)
Theorem C37_no_locations_refuted : exists o S st,
  preachable o 2 st /\ pstep o S (PUpdateNumAgents HighLatency true) st = Err AssertionError /\
  pstep o S (PUpdateNumAgents LowLatency true) st = Ok st.
Proof.
  exists ex_oracle, par_S, (pstart par_draws). split; [exists [], par_draws; split; reflexivity|].
  vm_compute; split; reflexivity.
Qed.
Print Assumptions C37_no_locations_refuted.
Theorem C37_idps_refuted : exists o st, preachable o 2 st /\
  people_in st 2 = 1%Z /\
  (forall e i l, In e (map fst st) -> nth_error (e_locations e) i = Some l -> l_idpcamp l = true <-> i = 2%nat) /\
  par_num_idps (map fst st) = 2%Z.
Proof. exact idps_multiplied. Qed.
Print Assumptions C37_idps_refuted.
Theorem C37_spawned_refuted : exists o S st0 st1 st2, preachable o 2 st0 /\
  (forall e, In e (map fst st0) -> map l_numAgentsSpawned (e_locations e) = [0; 0; 0]%Z) /\
  pstep o S add_A st0 = Ok st1 /\ pstep o par_S (day Classic) st1 = Ok st2 /\
  (forall e, In e (map fst st1) -> map l_numAgentsSpawned (e_locations e) = [1; 0; 0]%Z) /\
  (forall e, In e (map fst st2) -> map l_numAgentsSpawned (e_locations e) = [2; 0; 0]%Z).
Proof. exact spawned_multiplied. Qed.
Print Assumptions C37_spawned_refuted.

Example C37_example :
  let cs := [add_A; add_A; PInsertAgents [1; 1]%nat 3; day LocPar] in
  preachable ex_oracle 2 (par_end cs) /\
  rmap (map (fun x : eco * rng => (map l_numAgents (e_locations (fst x)), map k_numAgents (e_links (fst x)))))
    (pstep ex_oracle par_S (PUpdateNumAgents HighLatency false) (par_end cs)) =
  Ok [([0; 2; 0]%Z, [2; 1]%Z); ([0; 2; 0]%Z, [2; 1]%Z)] /\
  map (people_in (par_end cs)) [0; 1; 2]%nat = [0; 2; 0]%Z /\ map (people_on (par_end cs)) [0; 1]%nat = [2; 1]%Z.
Proof. cbv zeta. split; [apply par_reachable; vm_compute; reflexivity|]. vm_compute; repeat split; reflexivity. Qed.

(** C38. Every location belongs to the range of exactly one process, and the ranges differ
    in size by at most one. *)
Theorem C38_partition : forall o n st, preachable o n st ->
  (forall r e, nth_error (map fst st) r = Some e -> forall i, In i (own_range e) -> (i < List.length (e_locations e))%nat) /\
  (forall e i, In e (map fst st) -> (i < List.length (e_locations e))%nat ->
     exists q eq, nth_error (map fst st) q = Some eq /\ In i (own_range eq) /\
       forall s es, nth_error (map fst st) s = Some es -> In i (own_range es) -> s = q) /\
  (forall e f, In e (map fst st) -> In f (map fst st) ->
     (List.length (own_range e) <= List.length (own_range f) + 1)%nat).
Proof. exact f_partition. Qed.
Print Assumptions C38_partition.

(** The segments that synchronize_locations gathers, in an array with two scores per
    location, are those ranges. *)
Theorem C38_segments : forall nloc n r, (0 < n)%nat -> (r < n)%nat ->
  nth_error (sync_sizes (2 * nloc) (Z.of_nat n)) r = Some (2 * part_count nloc (Z.of_nat n) (Z.of_nat r))%Z /\
  nth_error (sync_offsets (2 * nloc) (Z.of_nat n)) r = Some (2 * part_offset nloc (Z.of_nat n) (Z.of_nat r))%Z.
Proof. exact f_segments. Qed.
Print Assumptions C38_segments.

(** After synchronize_locations each process holds for each location the scores computed by
    the owner of that location; nothing else changes. *)
Theorem C38_synchronize : forall o n st, preachable o n st ->
  List.length (synchronize (map fst st)) = List.length st /\
  forall r e, nth_error (map fst st) r = Some e -> exists ls,
    nth_error (synchronize (map fst st)) r = Some (up_e_locations (fun _ => ls) e) /\
    List.length ls = List.length (e_locations e) /\
    forall i l, nth_error (e_locations e) i = Some l ->
      exists q eq lq, nth_error (map fst st) q = Some eq /\ In i (own_range eq) /\ nth_error (e_locations eq) i = Some lq /\
        nth_error ls i = Some (up_l_score0 (fun _ => l_score0 lq) (up_l_score1 (fun _ => l_score1 lq) l)).
Proof. exact f_sync. Qed.
Print Assumptions C38_synchronize.

(** So all processes have the same scores after a step in this mode. *)
Theorem C38_same_scores : forall o n S lat fuel st st',
  preachable o n st -> pstep o S (PEvolve LocPar lat fuel) st = Ok st' ->
  forall a b, In a (map fst st') -> In b (map fst st') ->
    map (fun l => (l_score0 l, l_score1 l)) (e_locations a) = map (fun l => (l_score0 l, l_score1 l)) (e_locations b).
Proof. exact f_same_scores. Qed.
Print Assumptions C38_same_scores.

Example C38_example :
  let cs := [add_A; add_A] in
  preachable ex_oracle 2 (par_end cs) /\
  map own_range (map fst (par_end cs)) = [[0; 1]; [2]]%nat /\
  sync_sizes 6 2 = [4; 2]%Z /\ sync_offsets 6 2 = [0; 4]%Z /\
  rmap (map (fun x : eco * rng => map (fun l => Qred (l_score1 l)) (e_locations (fst x)))) (pstep ex_oracle par_S (day LocPar) (par_end cs)) =
  Ok [[100000000000 # 316227766017; 1; 1]; [100000000000 # 316227766017; 1; 1]].
Proof. cbv zeta. split; [apply par_reachable; vm_compute; reflexivity|]. vm_compute; repeat split; reflexivity. Qed.

(** C50. As long as no road is closed or reopened, numAgents() gives on every process the
    number of agents stored on all processes together. *)
Theorem C50_total : forall o h gs st,
  (forall S c, In (S, c) h -> opens_closes_nothing c = true) -> prun o h (pstart gs) = Ok st ->
  forall e, In e (map fst st) -> par_num_agents e = people st.
Proof. exact f_total. Qed.
Print Assumptions C50_total.

(** An agent on a road that is closed under it is not counted. *)
Theorem C50_closed_road_refuted : exists o st,
  preachable o 2 st /\ people st = 1%Z /\
  (forall e, In e (map fst st) -> par_num_agents e = 0%Z) /\ (exists e, In e (map fst st)).
Proof. exact total_misses_closed. Qed.
Print Assumptions C50_closed_road_refuted.

Example C50_example :
  let cs := [add_A; add_A; PInsertAgents [1; 1]%nat 3; day LocPar; PClearLocations LowLatency ["B"]] in
  (forall S c, In (S, c) (map (pair par_S) (par_build ++ cs)) -> opens_closes_nothing c = true) /\
  is_ok (par_run cs) = true /\
  map (fun x : eco * rng => par_num_agents (fst x)) (par_end cs) = [3; 3]%Z /\ people (par_end cs) = 3%Z.
Proof.
  cbv zeta. split.
  { intros S c H. apply in_map_iff in H as (x & Hx & H). injection Hx as _ <-. revert x H. apply Forall_forall. repeat constructor. }
  vm_compute; repeat split; reflexivity.
Qed.

(** C51. A parallel step keeps the agents of each process, in order, with home and
    attributes; each gets one step older and none is deactivated or moved to another
    process. *)
Theorem C51_agents : forall o n S m lat fuel st st',
  preachable o n st -> pstep o S (PEvolve m lat fuel) st = Ok st' ->
  forall r, List.length (held st' r) = List.length (held st r) /\
    forall k a a', nth_error (held st r) k = Some a -> nth_error (held st' r) k = Some a' ->
      a_home_location a' = a_home_location a /\ a_attributes a' = a_attributes a /\
      a_timesteps_since_departure a' = (a_timesteps_since_departure a + 1)%Z /\ deactivated a' = false.
Proof. exact f_agents. Qed.
Print Assumptions C51_agents.

Example C51_example :
  let cs := [add_A; add_A] in
  preachable ex_oracle 2 (par_end cs) /\
  rmap (map (fun x : eco * rng => map (fun a => (a_home_location a, a_timesteps_since_departure a, a_location a)) (e_agents (fst x))))
    (pstep ex_oracle par_S (day Classic) (par_end cs)) = Ok [[(0%nat, 1%Z, PLink 0)]; [(0%nat, 1%Z, PLink 0)]].
Proof. cbv zeta. split; [apply par_reachable; vm_compute; reflexivity|]. vm_compute; reflexivity. Qed.
