(** * PropertiesExchangeLog: C84

    The logs of exchanged numbers.  Vocabulary: SpecExchangeLog.v, SpecCoupling.v. *)

From Verif Require Import Base State Moving Flee Api SpecHistory Pflee ParApi SpecParallel Coupling SpecCoupling
  Defaults ExampleRun ParallelWitness CouplingText CouplingRun CouplingWitness SpecExchange ExchangeProofs GhostProofs ExchangeWitness
  AgentLog ExchangeLog SpecExchangeLog XLogProofs XLogWitness.
Local Open Scope string_scope.
Local Open Scope list_scope.
Local Opaque prun run.

(** C84. Instances of a simulation with the same coupled locations run and save their logs;
    the files are then read for plotting.  The days are those of the exchanges, there is one
    column for each outgoing name, and it has for each instance, in order, the numbers that
    the instance sent under this name on these days. *)
Theorem C84_locations : forall cp i runs logs, has_interval cp i -> NoDup (cp_names cp) ->
  (forall name, outgoing cp name -> plain name) -> (exists name, outgoing cp name) ->
  Forall2 (logs_of cp) runs logs -> (forall h, In h runs -> (2 <= List.length (exchange_days i h))%nat) ->
  exists days columns, read_logs (map (save_locations "" cp) logs) (out_names cp) = Ok (days, columns) /\
    days = match runs with [] => [] | h :: _ => map fst (exchange_days i h) end /\
    (forall name, In name (map fst columns) <-> outgoing cp name) /\ NoDup (map fst columns) /\
    forall name series, dict_get name columns = Some series ->
      Forall2 (fun h numbers => Forall2 (fun d z => sends (snd d) cp name z) (exchange_days i h) numbers) runs series.
Proof. exact f_locations. Qed.
Print Assumptions C84_locations.

Example C84_locations_example :
  has_interval sender_cp 1 /\ NoDup (cp_names sender_cp) /\ (forall name, outgoing sender_cp name -> plain name) /\ (exists name, outgoing sender_cp name) /\
  Forall2 (logs_of sender_cp) [first_run; second_run] [run_logs sender_cp first_run; run_logs sender_cp second_run] /\
  (forall h, In h [first_run; second_run] -> (2 <= List.length (exchange_days 1 h))%nat) /\
  read_logs [save_locations "" sender_cp (run_logs sender_cp first_run); save_locations "" sender_cp (run_logs sender_cp second_run)] (out_names sender_cp) =
    Ok ([0; 1]%Z, [("east", [[2; 1]; [1; 2]]%Z); ("west", [[1; 3]; [0; 1]]%Z)]).
Proof.
  split; [exact sender_interval|]. split; [exact sender_nodup|]. split; [exact sender_outgoing|]. split; [exact east_outgoing|].
  split; [apply Forall2_cons; [exact logs_first|]; apply Forall2_cons; [exact logs_second|apply Forall2_nil]|]. split; [|vm_compute; reflexivity].
  intros h [<-|[<-|[]]]; vm_compute; repeat constructor.
Qed.

(** The log of totals has the number of people in the whole simulation on the days of
    exchanges; the log of new people what the run script gave it. *)
Theorem C84_total : forall cp i h lg, has_interval cp i -> logs_of cp h lg -> (2 <= List.length (exchange_days i h))%nat ->
  read_logs [save_total "" lg] ["total_agents"] =
  Ok (map fst (exchange_days i h), [("total_agents", [map (fun d => par_num_agents (snd d)) (exchange_days i h)])]).
Proof. exact f_total. Qed.
Print Assumptions C84_total.

Theorem C84_new : forall (days : list (Z * Z)) lg, x_new lg = None -> (2 <= List.length days)%nat ->
  read_logs [save_new "" (fold_left (fun lg d => log_new (fst d) (snd d) lg) days lg)] ["new_refs"] = Ok (map fst days, [("new_refs", [map snd days])]).
Proof. exact f_new. Qed.
Print Assumptions C84_new.

Example C84_total_example :
  has_interval sender_cp 1 /\ logs_of sender_cp first_run (run_logs sender_cp first_run) /\ (2 <= List.length (exchange_days 1 first_run))%nat /\
  x_new (run_logs sender_cp first_run) = None /\
  read_logs [save_total "" (run_logs sender_cp first_run)] ["total_agents"] = Ok ([0; 1]%Z, [("total_agents", [[3; 8]%Z])]).
Proof.
  split; [exact sender_interval|]. split; [exact logs_first|]. split; [vm_compute; repeat constructor|]. split; vm_compute; reflexivity.
Qed.

(** After a single exchange, or without outgoing locations, reading for plotting fails. *)
Theorem C84_short : forall cp i h lg, has_interval cp i -> (forall name, outgoing cp name -> plain name) -> logs_of cp h lg ->
  exchange_days i h <> [] -> List.length (exchange_days i h) = 1%nat \/ ~ (exists name, outgoing cp name) ->
  read_logs [save_locations "" cp lg] (out_names cp) = Err IndexError.
Proof. exact f_short. Qed.
Print Assumptions C84_short.

Example C84_short_example :
  has_interval sender_cp 1 /\ (forall name, outgoing sender_cp name -> plain name) /\ logs_of sender_cp one_day (run_logs sender_cp one_day) /\
  exchange_days 1 one_day <> [] /\ List.length (exchange_days 1 one_day) = 1%nat.
Proof.
  split; [exact sender_interval|]. split; [exact sender_outgoing|]. split; [exact logs_one|]. split; [discriminate|reflexivity].
Qed.

(** Without an exchange the files stay as they are. *)
Theorem C84_nothing : forall cp i h lg old, has_interval cp i -> logs_of cp h lg -> exchange_days i h = [] ->
  save_total old lg = old /\ save_locations old cp lg = old /\ save_new old lg = old.
Proof. exact f_nothing. Qed.
Print Assumptions C84_nothing.

Example C84_nothing_example :
  has_interval rare_cp 3 /\ logs_of rare_cp rare_run no_log /\ exchange_days 3 rare_run = [] /\ List.length rare_run = 2%nat.
Proof. exact rare_logs. Qed.

(** Two locations coupled under one name: the column of a third name has the numbers of one
    of the two. *)
Theorem C84_same_name_refuted : exists cp e h lg days columns,
  declared e cp /\ has_interval cp 1 /\ (forall name, outgoing cp name -> plain name) /\ logs_of cp h lg /\
  read_logs [save_locations "" cp lg] (out_names cp) = Ok (days, columns) /\
  dict_get "y" columns = Some [[1; 1]%Z] /\ forall d z, In d h -> sends (snd d) cp "y" z -> z = 0%Z.
Proof. exact wrong_column. Qed.
Print Assumptions C84_same_name_refuted.

(** Logs saved to the files of an earlier run cannot be read. *)
Theorem C84_old_file_refuted : exists cp h lg, has_interval cp 1 /\ NoDup (cp_names cp) /\ (forall name, outgoing cp name -> plain name) /\ logs_of cp h lg /\
  is_ok (read_logs [save_locations "" cp lg] (out_names cp)) = true /\
  read_logs [save_locations (save_locations "" cp lg) cp lg] (out_names cp) = Err ValueError.
Proof. exact saved_twice. Qed.
Print Assumptions C84_old_file_refuted.
