(** * XLogWitness: logs of two instances, for C84 *)

From Verif Require Import Base State Moving Flee Api SpecHistory Pflee ParApi SpecParallel Coupling SpecCoupling
  Defaults ExampleRun ParallelWitness CouplingText CouplingRun CouplingWitness SpecExchange ExchangeProofs GhostProofs ExchangeWitness
  AgentLog ExchangeLog SpecExchangeLog XLogProofs.
Local Open Scope string_scope.
Local Open Scope list_scope.
Local Opaque prun run.

Definition log_end (r : res xlog) : xlog := match r with Ok lg => lg | Err _ => no_log end.
Definition run_logs (cp : coupling) (h : history) : xlog := log_end (foldM (fun lg d => couple_log (fst d) (snd d) cp lg) h no_log).
Lemma logs_ok cp h : is_ok (foldM (fun lg d => couple_log (fst d) (snd d) cp lg) h no_log) = true -> logs_of cp h (run_logs cp h).
Proof. unfold logs_of, run_logs. destruct (foldM _ h no_log); [reflexivity|discriminate]. Qed.

Definition first_run : history := [(0%Z, sender); (1%Z, other true)].
Definition second_run : history := [(0%Z, other false); (1%Z, sender)].
Lemma logs_first : logs_of sender_cp first_run (run_logs sender_cp first_run).
Proof. apply logs_ok. vm_compute. reflexivity. Qed.
Lemma logs_second : logs_of sender_cp second_run (run_logs sender_cp second_run).
Proof. apply logs_ok. vm_compute. reflexivity. Qed.
Lemma sender_interval : has_interval sender_cp 1.
Proof. rewrite sender_list. split; [reflexivity|discriminate]. Qed.
Lemma sender_nodup : NoDup (cp_names sender_cp).
Proof. rewrite sender_list. repeat constructor; cbn; intuition discriminate. Qed.
Lemma sender_outgoing : forall name, outgoing sender_cp name -> plain name.
Proof. intros n (i & d & C & _). rewrite sender_list in C. exact (proj1 (cp_plain _ _ _ _ _ _ C)). Qed.
Lemma east_outgoing : exists name, outgoing sender_cp name.
Proof. exists "east", 0%nat, "inout". rewrite sender_list. split; [exists 0%nat; auto|]. apply says_in; [discriminate|reflexivity]. Qed.

(** Three outgoing locations, the first two under the same name *)
Definition same_names (e : eco) : res coupling :=
  c1 <- add_coupled 0 "x" "out" 1 e no_coupling ;;
  c2 <- add_coupled 1 "x" "out" 1 e c1 ;;
  add_coupled 2 "y" "out" 1 e c2.
Definition same_cp : coupling := cp_end (same_names sender).
Lemma same_list : same_cp = Cpl [0; 1; 2]%nat ["A"; "B"; "C"] ["x"; "x"; "y"] ["out"; "out"; "out"] [1; 1; 1]%Z.
Proof. vm_compute. reflexivity. Qed.
Lemma same_more e : is_ok (same_names e) = true -> declared e (cp_end (same_names e)).
Proof.
  unfold same_names. destruct (add_coupled 0 "x" "out" 1 e no_coupling) as [c1|] eqn:E1; [|discriminate]. cbn [bind].
  destruct (add_coupled 1 "x" "out" 1 e c1) as [c2|] eqn:E2; [|discriminate]. cbn [bind].
  destruct (add_coupled 2 "y" "out" 1 e c2) as [c3|] eqn:E3; [|discriminate]. intros _. cbn [cp_end].
  eapply declared_more; [|exact E3]. eapply declared_more; [|exact E2]. eapply declared_more; [|exact E1]. constructor.
Qed.
Lemma same_declared : declared sender same_cp.
Proof. apply same_more. vm_compute. reflexivity. Qed.
Definition still_run : history := [(0%Z, sender); (1%Z, sender)].
Lemma xy_plain : plain "x" /\ plain "y".
Proof. repeat split; try discriminate; nots. Qed.
Lemma y_sends z : sends sender same_cp "y" z -> z = 0%Z.
Proof.
  assert (X : option_map l_numAgents (nth_error (e_locations sender) 2) = Some 0%Z) by (vm_compute; reflexivity). revert X. generalize sender as e. intros e X.
  rewrite same_list. intros (i & dir & l & (k & A & B & C) & _ & L & Nl). cbn [cp_ids cp_names] in A, B.
  destruct k as [|[|[|[|k]]]]; cbn in A, B; try discriminate B. injection A as <-. subst z. rewrite L in X. cbn in X. now injection X.
Qed.
Lemma wrong_column : exists cp e h lg days columns,
  declared e cp /\ has_interval cp 1 /\ (forall name, outgoing cp name -> plain name) /\ logs_of cp h lg /\
  read_logs [save_locations "" cp lg] (out_names cp) = Ok (days, columns) /\
  dict_get "y" columns = Some [[1; 1]%Z] /\ forall d z, In d h -> sends (snd d) cp "y" z -> z = 0%Z.
Proof.
  exists same_cp, sender, still_run, (run_logs same_cp still_run), [0; 1]%Z, [("x", [[2; 2]]%Z); ("y", [[1; 1]]%Z)]. split; [exact same_declared|].
  split; [rewrite same_list; split; [reflexivity|discriminate]|]. split.
  - intros n (i & d & (k & A & B & C) & _). rewrite same_list in B. cbn [cp_names] in B. clear A C.
    destruct xy_plain. destruct k as [|[|[|[|k]]]]; cbn in B; try discriminate B; injection B as <-; assumption.
  - split; [apply logs_ok; vm_compute; reflexivity|]. split; [vm_compute; reflexivity|]. split; [reflexivity|].
    intros d z D. assert (E : snd d = sender) by (destruct D as [<-|[<-|[]]]; reflexivity). rewrite E. exact (y_sends z).
Qed.
Lemma saved_twice : exists cp h lg, has_interval cp 1 /\ NoDup (cp_names cp) /\ (forall name, outgoing cp name -> plain name) /\ logs_of cp h lg /\
  is_ok (read_logs [save_locations "" cp lg] (out_names cp)) = true /\
  read_logs [save_locations (save_locations "" cp lg) cp lg] (out_names cp) = Err ValueError.
Proof.
  exists sender_cp, first_run, (run_logs sender_cp first_run). split; [exact sender_interval|]. split; [exact sender_nodup|]. split; [exact sender_outgoing|].
  split; [exact logs_first|]. split; vm_compute; reflexivity.
Qed.
Definition one_day : history := [(0%Z, sender)].
Lemma logs_one : logs_of sender_cp one_day (run_logs sender_cp one_day).
Proof. apply logs_ok. vm_compute. reflexivity. Qed.
(** A run of two days between exchanges *)
Definition rare_cp : coupling := Cpl [0]%nat ["A"] ["east"] ["out"] [3]%Z.
Definition rare_run : history := [(1%Z, sender); (2%Z, other true)].
Lemma rare_logs : has_interval rare_cp 3 /\ logs_of rare_cp rare_run no_log /\ exchange_days 3 rare_run = [] /\ List.length rare_run = 2%nat.
Proof. split; [split; [reflexivity|discriminate]|]. split; [vm_compute; reflexivity|]. split; reflexivity. Qed.
