(** * QuietWitness: simulations with and without logs *)

From Verif Require Import Base State Moving Crawling Scoring Diagnostics Flee DataTable Spawning InputGeography Dates DataFiles Analysis RunScript Api
  SpecAgents SpecHistory SpecQuiet Lemmas Defaults ExampleRun LinkLogWitness RunWitness.
Local Open Scope string_scope.
Local Open Scope Q_scope.
Local Open Scope list_scope.

(** Deciding [loggable], for a day and for every day of a simulation *)
Definition countable_b (d : dict) : bool := forallb (fun p => match snd p with VList _ => false | _ => true end) d.
Definition loggable_b (S : settings) (e : eco) : bool :=
  (negb (0 <? s_log_agent S)%Z || (negb (String.eqb (s_granularity S) "region") &&
     (negb (e_time e =? 0)%Z || match e_agents e with [] => false | _ => true end))) &&
  (negb (1 <? s_log_link S)%Z || forallb (fun a => countable_b (a_attributes a)) (e_agents e)).
Lemma countable_b_ok d : countable_b d = true -> countable d.
Proof. unfold countable_b. rewrite forallb_forall. intros H k l I. discriminate (H _ I). Qed.
Lemma loggable_b_ok S e : loggable_b S e = true -> loggable S e.
Proof.
  unfold loggable_b. intro H. apply Bool.andb_true_iff in H as [A B]. split.
  - intros L E. apply Z.ltb_lt in L. rewrite L, E in A. discriminate A.
  - intros L T E. apply Z.ltb_lt in L. rewrite L, T, E in A. cbn in A. apply Bool.andb_true_iff in A as [_ A]. discriminate A.
  - intros L a I. apply Z.ltb_lt in L. rewrite L in B. cbn in B. rewrite forallb_forall in B. apply countable_b_ok, B, I.
Qed.

Definition day_b (agent link camp : Z) (o : oracle) (g0 : rng) (h : history) (n : nat) : bool :=
  match nth_error h n with
  | Some (st, OEvolve _) => match run o (quiet_history (firstn n h)) empty_eco g0 with Ok (e, _) => loggable_b (logging agent link camp st) e | Err _ => true end
  | _ => true
  end.
Lemma days_ok agent link camp o g0 h : forallb (day_b agent link camp o g0 h) (seq 0 (List.length h)) = true ->
  forall h1 S fuel h2 e1 g1, h = h1 ++ (S, OEvolve fuel) :: h2 -> run o (quiet_history h1) empty_eco g0 = Ok (e1, g1) ->
    loggable (logging agent link camp S) e1.
Proof.
  rewrite forallb_forall. intros H h1 S fuel h2 e1 g1 -> R. specialize (H (List.length h1)). unfold day_b in H.
  rewrite nth_error_app2, Nat.sub_diag in H by auto. cbn [nth_error] in H.
  rewrite firstn_app, Nat.sub_diag, firstn_all, app_nil_r, R in H. apply loggable_b_ok, H.
  apply in_seq. rewrite app_length. cbn [List.length]. split; [apply Nat.le_0_l|]. rewrite Nat.add_0_l, Nat.add_succ_r. apply -> Nat.succ_le_mono. apply Nat.le_add_r.
Qed.

(** Three days with every log, with one main line per agent, and without any *)
Definition the_calls : history := map (pair ex_S) (lnk_build ++ repeat (OEvolve 10) 3).
Definition loud_run : res (eco * rng) := run ex_oracle (logged_history 2 2 2 the_calls) empty_eco ex_draws.
Definition main_run : res (eco * rng) := run ex_oracle (logged_history 1 0 0 the_calls) empty_eco ex_draws.
Definition mute_run : res (eco * rng) := run ex_oracle (quiet_history the_calls) empty_eco ex_draws.

Lemma all_run : is_ok loud_run = true /\ is_ok main_run = true /\ is_ok mute_run = true.
Proof. repeat split; vm_compute; reflexivity. Qed.

(** What is in the logs, and where the people are *)
Definition seen (r : res (eco * rng)) :=
  (List.length (e_agents_out (end_eco r)), List.length (e_links_out (end_eco r)), e_num_arrivals (end_eco r),
   map (fun a => Qred (a_distance_travelled a)) (e_agents (end_eco r)), map a_location (e_agents (end_eco r))).
Lemma logs_differ :
  seen loud_run = (13%nat, 28%nat, [0; 1; 1]%Z, [100; 600; 500], [PLink 2; PLoc 2; PLoc 2]) /\
  seen main_run = (9%nat, 0%nat, [], [100; 600; 500], [PLink 2; PLoc 2; PLoc 2]) /\
  seen mute_run = (0%nat, 0%nat, [], [0; 0; 0], [PLink 2; PLoc 2; PLoc 2]).
Proof. repeat split; vm_compute; reflexivity. Qed.

Lemma any_same a k c a' k' c' h : same_calls (logged_history a k c h) (logged_history a' k' c' h).
Proof. induction h as [|x h IH]; constructor; [|exact IH]. split; [exists a', k', c'; reflexivity|reflexivity]. Qed.
Lemma loud_days : forallb (day_b 2 2 2 ex_oracle ex_draws the_calls) (seq 0 (List.length the_calls)) = true.
Proof. vm_compute. reflexivity. Qed.

(** Simulations that only run without logs *)
Definition region_S : settings := up_s_granularity (fun _ => "region") ex_S.
Definition nobody : history := [(ex_S, OEvolve 10)].
Definition regions : history := map (pair region_S) (ex_build ++ [OEvolve 10]).
Definition lists : history :=
  map (pair ex_S) (ex_build ++ [OAddAgent 0 [("languages", VList [1; 2]%Z)]; OEvolve 10]).

Definition outcome (r : res (eco * rng)) : res unit := rmap (fun _ => tt) r.
Lemma outcome_err r x : outcome r = Err x -> r = Err x.
Proof. destruct r; cbn; [discriminate|]. now intros [= ->]. Qed.
Lemma nobody_case : is_ok (run ex_oracle (quiet_history nobody) empty_eco ex_draws) = true /\
  outcome (run ex_oracle (logged_history 1 0 0 nobody) empty_eco ex_draws) = Err IndexError.
Proof. split; vm_compute; reflexivity. Qed.
Lemma regions_case : is_ok (run ex_oracle (quiet_history regions) empty_eco ex_draws) = true /\
  outcome (run ex_oracle (logged_history 1 0 0 regions) empty_eco ex_draws) = Err NameError.
Proof. split; vm_compute; reflexivity. Qed.
Lemma lists_case : is_ok (run ex_oracle (quiet_history lists) empty_eco ex_draws) = true /\
  outcome (run ex_oracle (logged_history 0 2 0 lists) empty_eco ex_draws) = Err TypeError.
Proof. split; vm_compute; reflexivity. Qed.

(** The main program *)
Lemma program_case : is_ok (run_script 10 data_S ex_oracle run_inp ex_draws) = true /\
  is_ok (run_script 10 (logging 2 2 2 data_S) ex_oracle run_inp ex_draws) = true.
Proof. split; vm_compute; reflexivity. Qed.
