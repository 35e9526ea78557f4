(** * ParallelWitness: concrete parallel programs *)

From Verif Require Import Base State Moving Crawling Scoring Diagnostics Flee DataTable
  Spawning InputGeography Api Pflee ParApi SpecAgents SpecHistory SpecParallel Defaults ExampleRun ExampleTravel Lemmas.
Local Open Scope Q_scope.
Local Open Scope string_scope.
Local Open Scope list_scope.

(** Two processes; A (conflict zone) - B (town) 5000 km apart; agents leave A at once. *)
Definition par_S : settings := default_settings.
Definition par_draws : list rng := [rng_const (1 # 4); rng_const (3 # 4)].
Definition par_build : list pop :=
  [ PAddLocation nA "r" 0 0 (Some "conflict_zone") 1 (-1) 100 false "X" (Some []);
    PAddLocation nB "r" 1 0 (Some "town") 1 (-1) 50 false "X" (Some []);
    PAddLocation nC "r" 2 0 (Some "idpcamp") 1 1000 0 false "X" (Some []);
    PEach (OLinkUp "A" "B" 5000 false None) ].
Definition par_run (cs : list pop) : res (list (eco * rng)) :=
  prun ex_oracle (map (pair par_S) (par_build ++ cs)) (pstart par_draws).
Definition par_end (cs : list pop) : list (eco * rng) := match par_run cs with Ok st => st | Err _ => [] end.

Definition to_A : list (nat * dict) := [(0%nat, []); (0%nat, [])].
Definition add_A : pop := PAddAgent to_A.
Definition day (m : pmode) : pop := PEvolve m HighLatency 10.

Local Opaque prun.

Lemma par_ok cs : is_ok (par_run cs) = true -> par_run cs = Ok (par_end cs).
Proof. unfold par_end. destruct (par_run cs); [reflexivity|discriminate]. Qed.
Lemma par_reachable cs : is_ok (par_run cs) = true -> preachable ex_oracle 2 (par_end cs).
Proof. intro H. exists (map (pair par_S) (par_build ++ cs)), par_draws. split; [reflexivity|]. apply (par_ok cs H). Qed.
(** One more call *)
Lemma run_more o S (h : list pop) c st :
  prun o (map (pair S) (h ++ [c])) st = (st1 <- prun o (map (pair S) h) st ;; pstep o S c st1).
Proof.
  Local Transparent prun. unfold prun. revert st. induction h as [|x h IH]; intro st; cbn [app foldM map fst snd bind].
  - destruct (pstep o S c st); reflexivity.
  - destruct (pstep _ _ _ _); cbn [bind]; [apply IH|reflexivity].
Qed.
Local Opaque prun.
Definition ended (r : res (list (eco * rng))) : list (eco * rng) := match r with Ok st => st | Err _ => [] end.
Lemma more o S h c st : is_ok (prun o (map (pair S) (h ++ [c])) st) = true ->
  pstep o S c (ended (prun o (map (pair S) h) st)) = Ok (ended (prun o (map (pair S) (h ++ [c])) st)).
Proof.
  rewrite run_more. destruct (prun o (map (pair S) h) st) as [st1|]; cbn [bind ended is_ok]; [|discriminate].
  destruct (pstep o S c st1); [reflexivity|discriminate].
Qed.
Lemma par_more cs c : is_ok (par_run (cs ++ [c])) = true ->
  pstep ex_oracle par_S c (par_end cs) = Ok (par_end (cs ++ [c])).
Proof. unfold par_run. rewrite app_assoc. intro H. pose proof (more _ _ _ _ _ H) as X. rewrite <- app_assoc in X. exact X. Qed.

(** ** Balance is lost when locations are cleared between the calls *)

Lemma clear_unbalances :
  let c := PClearLocations HighLatency ["A"] in
  exists o st0 st1 st2 st3,
    preachable o 2 st0 /\ pstep o par_S add_A st0 = Ok st1 /\ pstep o par_S c st1 = Ok st2 /\
    pstep o par_S add_A st2 = Ok st3 /\
    held st0 1 = [] /\ List.length (held st1 1) = 1%nat /\ held st2 1 = [] /\ List.length (held st3 1) = 1%nat /\
    held st1 0 = [] /\ held st2 0 = [] /\ held st3 0 = [].
Proof.
  cbv zeta. set (c := PClearLocations HighLatency ["A"]).
  exists ex_oracle, (par_end []), (par_end [add_A]), (par_end [add_A; c]), (par_end [add_A; c; add_A]).
  split; [apply par_reachable; vm_compute; reflexivity|].
  split; [apply (par_more []); vm_compute; reflexivity|].
  split; [apply (par_more [add_A]); vm_compute; reflexivity|].
  split; [apply (par_more [add_A; c]); vm_compute; reflexivity|].
  vm_compute. repeat split; reflexivity.
Qed.

(** ** The total misses agents on a closed road, and with it the balance goes *)

Definition lost : list pop := [add_A; day Classic; PEach (ORemoveLink nA nB false true); day Classic].
Lemma total_misses_closed : exists o st,
  preachable o 2 st /\ people st = 1%Z /\
  (forall e, In e (map fst st) -> par_num_agents e = 0%Z) /\ (exists e, In e (map fst st)).
Proof.
  exists ex_oracle, (par_end lost). split; [apply par_reachable; vm_compute; reflexivity|].
  assert (X : people (par_end lost) = 1%Z /\ map par_num_agents (map fst (par_end lost)) = [0; 0]%Z) by (vm_compute; split; reflexivity).
  destruct X as [X1 X2]. split; [exact X1|]. revert X2. generalize (map fst (par_end lost)) as l. clear.
  intros [|a [|b [|]]] H; try discriminate. injection H as A B. split; [|exists a; now left].
  intros e [<-|[<-|[]]]; assumption.
Qed.
Lemma closing_unbalances : exists o st, preachable o 2 st /\ List.length (held st 1) = 2%nat /\ held st 0 = [].
Proof.
  exists ex_oracle, (par_end (lost ++ [add_A])). split; [apply par_reachable; vm_compute; reflexivity|].
  vm_compute. split; reflexivity.
Qed.

(** ** Counters that come out multiplied by the number of processes *)

Lemma idps_multiplied : exists o st, preachable o 2 st /\
  people_in st 2 = 1%Z /\ (forall e i l, In e (map fst st) -> nth_error (e_locations e) i = Some l -> l_idpcamp l = true <-> i = 2%nat) /\
  par_num_idps (map fst st) = 2%Z.
Proof.
  set (cs := [PInsertAgent [(2%nat, []); (2%nat, [])]; PUpdateNumAgents HighLatency true]).
  exists ex_oracle, (par_end cs). split; [apply par_reachable; vm_compute; reflexivity|].
  split; [vm_compute; reflexivity|]. split; [|vm_compute; reflexivity].
  assert (X : map (fun e => map l_idpcamp (e_locations e)) (map fst (par_end cs)) = [[false; false; true]; [false; false; true]]) by (vm_compute; reflexivity).
  revert X. generalize (map fst (par_end cs)) as es. clear. intros es X e i l He Hl.
  assert (Y : map l_idpcamp (e_locations e) = [false; false; true]).
  { apply (in_map (fun e => map l_idpcamp (e_locations e))) in He. rewrite X in He. destruct He as [<-|[<-|[]]]; reflexivity. }
  apply (map_nth_error l_idpcamp) in Hl. rewrite Y in Hl.
  destruct i as [|[|[|i]]]; cbn in Hl; try (injection Hl as Hl; rewrite <- Hl; split; [discriminate|discriminate]).
  - injection Hl as <-. split; reflexivity.
  - destruct i; discriminate.
Qed.
Lemma spawned_multiplied : exists o S st0 st1 st2, preachable o 2 st0 /\
  (forall e, In e (map fst st0) -> map l_numAgentsSpawned (e_locations e) = [0; 0; 0]%Z) /\
  pstep o S add_A st0 = Ok st1 /\ pstep o par_S (day Classic) st1 = Ok st2 /\
  (forall e, In e (map fst st1) -> map l_numAgentsSpawned (e_locations e) = [1; 0; 0]%Z) /\
  (forall e, In e (map fst st2) -> map l_numAgentsSpawned (e_locations e) = [2; 0; 0]%Z).
Proof.
  set (S := up_s_TakeFromPopulation (fun _ => true) par_S).
  set (st1 := match pstep ex_oracle S add_A (par_end []) with Ok s => s | Err _ => [] end).
  set (st2 := match pstep ex_oracle par_S (day Classic) st1 with Ok s => s | Err _ => [] end).
  exists ex_oracle, S, (par_end []), st1, st2. split; [apply par_reachable; vm_compute; reflexivity|].
  assert (W : forall (st : list (eco * rng)) v, map (fun e => map l_numAgentsSpawned (e_locations e)) (map fst st) = [v; v] ->
     forall e, In e (map fst st) -> map l_numAgentsSpawned (e_locations e) = v).
  { clear. intros st v X e He. apply (in_map (fun e => map l_numAgentsSpawned (e_locations e))) in He.
    rewrite X in He. destruct He as [<-|[<-|[]]]; reflexivity. }
  assert (O1 : is_ok (pstep ex_oracle S add_A (par_end [])) = true) by (vm_compute; reflexivity).
  assert (O2 : is_ok (pstep ex_oracle par_S (day Classic) st1) = true) by (vm_compute; reflexivity).
  split; [apply W; vm_compute; reflexivity|].
  split; [unfold st1; destruct (pstep ex_oracle S add_A (par_end [])); [reflexivity|discriminate]|].
  split; [unfold st2; destruct (pstep ex_oracle par_S (day Classic) st1); [reflexivity|discriminate]|].
  split; apply W; vm_compute; reflexivity.
Qed.
