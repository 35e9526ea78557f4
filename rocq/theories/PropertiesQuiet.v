(** * PropertiesQuiet: C80

    The logs do not change the simulation.  The vocabulary is in SpecQuiet.v
    ([same_calls], [quiet_history], [without_logs], [loggable]). *)

From Verif Require Import Base State Moving Crawling Scoring Diagnostics Flee DataTable Spawning InputGeography RunScript Api
  SpecAgents SpecHistory SpecQuiet Defaults ExampleRun LinkLogWitness RunWitness QuietRun QuietBack QuietScript QuietWitness.
Local Open Scope string_scope.
Local Open Scope Q_scope.
Local Open Scope list_scope.
Local Opaque run run_script without_logs.

(** C80. The same calls with other log levels lead to the same world - the same people at
    the same places, the same network, scores and counters - and use the same random
    numbers. *)
Theorem C80_same : forall o h h' g0 e g e' g', same_calls h h' ->
  run o h empty_eco g0 = Ok (e, g) -> run o h' empty_eco g0 = Ok (e', g') ->
  without_logs e' = without_logs e /\ g' = g.
Proof. exact (fun o h h' g0 e g e' g' => f_same o h h' e e' g g' g0). Qed.
Print Assumptions C80_same.

(** Concrete case: three days with all logs, and with main lines of the agent log only;
    the logs differ and the people are at the same places. *)
Example C80_same_case : same_calls (logged_history 2 2 2 the_calls) (logged_history 1 0 0 the_calls) /\
  run ex_oracle (logged_history 2 2 2 the_calls) empty_eco ex_draws = Ok (end_eco loud_run, end_rng loud_run) /\
  run ex_oracle (logged_history 1 0 0 the_calls) empty_eco ex_draws = Ok (end_eco main_run, end_rng main_run) /\
  seen loud_run = (13%nat, 28%nat, [0; 1; 1]%Z, [100; 600; 500], [PLink 2; PLoc 2; PLoc 2]) /\
  seen main_run = (9%nat, 0%nat, [], [100; 600; 500], [PLink 2; PLoc 2; PLoc 2]).
Proof.
  exact (conj (any_same 2 2 2 1 0 0 the_calls) (conj (end_ok loud_run (proj1 all_run)) (conj (end_ok main_run (proj1 (proj2 all_run)))
    (conj (proj1 logs_differ) (proj1 (proj2 logs_differ)))))).
Qed.

(** Switching all logs off never makes a simulation fail, and leaves the world with
    nothing in its logs. *)
Theorem C80_quiet : forall o h g0 e g,
  run o h empty_eco g0 = Ok (e, g) -> run o (quiet_history h) empty_eco g0 = Ok (without_logs e, g).
Proof. exact (fun o h g0 e g => f_quiet o h e g g0). Qed.
Print Assumptions C80_quiet.

Example C80_quiet_case :
  run ex_oracle (logged_history 2 2 2 the_calls) empty_eco ex_draws = Ok (end_eco loud_run, end_rng loud_run) /\
  seen (run ex_oracle (quiet_history the_calls) empty_eco ex_draws) = (0%nat, 0%nat, [], [0; 0; 0], [PLink 2; PLoc 2; PLoc 2]).
Proof. exact (conj (end_ok loud_run (proj1 all_run)) (proj2 (proj2 logs_differ))). Qed.

(** Running with logs does not make a simulation fail either, if every day can be logged. *)
Theorem C80_survives : forall o agent link camp h g0 e g, run o (quiet_history h) empty_eco g0 = Ok (e, g) ->
  (forall h1 S fuel h2 e1 g1, h = h1 ++ (S, OEvolve fuel) :: h2 ->
     run o (quiet_history h1) empty_eco g0 = Ok (e1, g1) -> loggable (logging agent link camp S) e1) ->
  exists e', run o (logged_history agent link camp h) empty_eco g0 = Ok (e', g) /\ without_logs e' = e.
Proof. exact f_survives. Qed.
Print Assumptions C80_survives.

Example C80_survives_case : run ex_oracle (quiet_history the_calls) empty_eco ex_draws = Ok (end_eco mute_run, end_rng mute_run) /\
  forall h1 S fuel h2 e1 g1, the_calls = h1 ++ (S, OEvolve fuel) :: h2 ->
    run ex_oracle (quiet_history h1) empty_eco ex_draws = Ok (e1, g1) -> loggable (logging 2 2 2 S) e1.
Proof. exact (conj (end_ok mute_run (proj2 (proj2 all_run))) (days_ok _ _ _ _ _ _ loud_days)). Qed.

(** Each condition is needed.  With an agent log the first day fails when there is nobody
    yet, any day with people fails with granularity by region, and with a road log of
    level 2 a person whose attributes hold a list cannot enter a road. *)
Theorem C80_nobody_refuted : exists o h g0,
  is_ok (run o (quiet_history h) empty_eco g0) = true /\ run o (logged_history 1 0 0 h) empty_eco g0 = Err IndexError.
Proof.
  exact (ex_intro _ ex_oracle (ex_intro _ nobody (ex_intro _ ex_draws (conj (proj1 nobody_case) (outcome_err _ _ (proj2 nobody_case)))))).
Qed.
Print Assumptions C80_nobody_refuted.
Theorem C80_region_refuted : exists o h g0,
  is_ok (run o (quiet_history h) empty_eco g0) = true /\ run o (logged_history 1 0 0 h) empty_eco g0 = Err NameError.
Proof.
  exact (ex_intro _ ex_oracle (ex_intro _ regions (ex_intro _ ex_draws (conj (proj1 regions_case) (outcome_err _ _ (proj2 regions_case)))))).
Qed.
Print Assumptions C80_region_refuted.
Theorem C80_lists_refuted : exists o h g0,
  is_ok (run o (quiet_history h) empty_eco g0) = true /\ run o (logged_history 0 2 0 h) empty_eco g0 = Err TypeError.
Proof.
  exact (ex_intro _ ex_oracle (ex_intro _ lists (ex_intro _ ex_draws (conj (proj1 lists_case) (outcome_err _ _ (proj2 lists_case)))))).
Qed.
Print Assumptions C80_lists_refuted.

(** The main program prints the same output whatever it logs; what it prints with logs it
    prints without. *)
Theorem C80_program : forall fuel S S' o inp g out out', same_but_logging S S' ->
  run_script fuel S o inp g = Ok out -> run_script fuel S' o inp g = Ok out' -> out' = out.
Proof. exact f_program. Qed.
Print Assumptions C80_program.
Theorem C80_program_quiet : forall fuel S o inp g out,
  run_script fuel S o inp g = Ok out -> run_script fuel (quiet_settings S) o inp g = Ok out.
Proof. exact f_program_quiet. Qed.
Print Assumptions C80_program_quiet.

Example C80_program_case : same_but_logging data_S (logging 2 2 2 data_S) /\
  is_ok (run_script 10 data_S ex_oracle run_inp ex_draws) = true /\
  is_ok (run_script 10 (logging 2 2 2 data_S) ex_oracle run_inp ex_draws) = true.
Proof. exact (conj (ex_intro _ 2%Z (ex_intro _ 2%Z (ex_intro _ 2%Z eq_refl))) program_case). Qed.
