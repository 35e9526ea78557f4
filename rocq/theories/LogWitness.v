(** * LogWitness: examples for C78 and C79 *)

From Coq Require Import Lia.
From Verif Require Import Base State Moving Crawling Flee DataTable Spawning InputGeography Dates DataFiles Analysis RunScript Api SpecAgents SpecHistory
  SpecRun Defaults ExampleRun NetworkWitness RunWitness ReportWitness Diagnostics Coupling AgentLog SpecAgentLog.
Local Open Scope string_scope.
Local Open Scope list_scope.

(** Three steps with numbered extra lines, and an agent more after the first *)
Definition log_history : history :=
  map (pair (log_S 3)) (ex_build ++ [OEvolve 10; OAddAgent 0 []; OEvolve 10; OEvolve 10]).
Definition logged : eco := end_eco (run ex_oracle log_history empty_eco ex_draws).
Definition logged_rng : rng := end_rng (run ex_oracle log_history empty_eco ex_draws).
Lemma logged_ok : run ex_oracle log_history empty_eco ex_draws = Ok (logged, logged_rng).
Proof. apply end_ok. vm_compute. reflexivity. Qed.
Lemma log_no_clear : no_clear log_history.
Proof. repeat constructor. Qed.
Lemma log_well : logged_well log_history.
Proof. unfold logged_well, log_history. apply Forall_map, Forall_forall. intros c _ _. right. discriminate. Qed.
Lemma logged_days : days_logged 0 (e_agents_out logged) = [0; 1; 2]%Z /\ days_logged 3 (e_agents_out logged) = [1; 2]%Z.
Proof. split; vm_compute; reflexivity. Qed.
Lemma logged_extra : existsb (fun r => negb (ar_hop r =? 0)%Z) (e_agents_out logged) = true.
Proof. vm_compute. reflexivity. Qed.

(** After clearLocationsFromAgents the numbers are given again. *)
Definition clear_history : history :=
  map (pair (log_S 1)) (firstn 5 ex_build ++ [OInsertAgent 2 []; OEvolve 10; OClearLocations ["C"]; OInsertAgent 1 []]).
Definition cleared : eco := end_eco (run ex_oracle clear_history empty_eco ex_draws).
Definition cleared_rng : rng := end_rng (run ex_oracle clear_history empty_eco ex_draws).
Lemma cleared_ok : run ex_oracle clear_history empty_eco ex_draws = Ok (cleared, cleared_rng).
Proof. apply end_ok. vm_compute. reflexivity. Qed.
Lemma cleared_not : exists r, In r (e_agents_out cleared) /\ (ar_agent r < List.length (e_agents cleared))%nat /\ ~ tells cleared r.
Proof.
  assert (X : map (fun r => (ar_agent r, ar_home r)) (e_agents_out cleared) = [(0%nat, "C")]) by (vm_compute; reflexivity).
  assert (Y : map (fun a => nth_error (map (fun l => sval (l_name l)) (e_locations cleared)) (a_home_location a)) (e_agents cleared) = [Some "B"]) by (vm_compute; reflexivity).
  revert X Y. generalize cleared. intros e X Y. destruct (e_agents_out e) as [|r [|r2 rs]]; try discriminate. injection X as A H. exists r. split; [now left|].
  destruct (e_agents e) as [|a [|a2 l]] eqn:E; try discriminate. injection Y as Y. split; [rewrite A; cbn; lia|].
  intros (b & p & Hb & Hp & Hh & _). rewrite E, A in Hb. injection Hb as <-. rewrite nth_error_map, Hp in Y. injection Y as Y. congruence.
Qed.

Lemma clear_refutes : ~ (forall o h g0 e g, run o h empty_eco g0 = Ok (e, g) ->
  forall r, In r (e_agents_out e) -> (ar_agent r < List.length (e_agents e))%nat -> tells e r).
Proof.
  intro H. pose proof (H ex_oracle clear_history ex_draws cleared cleared_rng cleared_ok) as X. clear H.
  destruct cleared_not as (r & A & B & C). exact (C (X r A B)).
Qed.

(** The main program with a table of ages *)
Definition ages : demographics := [("age", Demo [VInt 10; VInt 60] [("Default", [1; 1]%Q)]); ("work", Demo [VStr "farm"] [("Default", [1]%Q)])].
Definition log_inp (agents : option (list row)) (dm : demographics) : run_input :=
  RunInput (in_period run_inp) 0 (in_geo run_inp) [] agents (in_files run_inp) (in_layout run_inp) None 10 dm false 1.
Definition data_log_S : settings := up_s_log_agent (fun _ => 1%Z) data_S.
(** Setting up and the first day *)
Definition first_day (S : settings) (inp : run_input) : res (world * spawn_state * dtable * eco * rng) :=
  w <- set_up S ex_oracle inp ex_draws ;;
  '(e1, g1) <- step ex_oracle S (OAddNewConflictZones (in_conflict_file inp) (w_geo w) 0) (w_eco w) (w_rng w) ;;
  '(n, sp, d, e2, g2) <- spawn_daily_displaced S (in_dm inp) 0 (Spawn 0 0) (w_data w) e1 g1 ;;
  '(e, g) <- run ex_oracle [(S, ORefreshSpawnWeights); (S, OEnactBorderClosures 10 0 true); (S, OEvolve 10)] e2 g2 ;;
  Ok (w, sp, d, e, g).
Lemma first_day_sim S inp w sp d e g : first_day S inp = Ok (w, sp, d, e, g) ->
  set_up S ex_oracle inp ex_draws = Ok w /\ simulated 10 S ex_oracle inp w 1 sp d e g.
Proof.
  unfold first_day. intro H. destruct (set_up S ex_oracle inp ex_draws) as [w1|]; [|discriminate]. cbn [bind] in H.
  destruct (step ex_oracle S _ (w_eco w1) (w_rng w1)) as [[e1 g1]|] eqn:E1; [|discriminate]. cbn [bind] in H.
  destruct (spawn_daily_displaced S _ _ _ _ e1 g1) as [[[[[n sp1] d1] e2] g2]|] eqn:E2; [|discriminate]. cbn [bind] in H.
  destruct (run ex_oracle _ e2 g2) as [[e3 g3]|] eqn:E3; [|discriminate]. cbn [bind] in H. injection H as <- <- <- <- <-.
  split; [reflexivity|]. exact (One_more _ _ _ _ _ _ _ _ _ _ _ _ _ _ _ _ _ _ _ (At_start _ _ _ _ _) E1 E2 E3).
Qed.

Definition one_text : Q -> string := fun _ => "1.0".
Definition shown (x : res (world * spawn_state * dtable * eco * rng)) : option (list (list string) * list (list string)) :=
  match x with
  | Ok (_, _, _, e, _) => Some (map (fun a => map fst (a_attributes a)) (e_agents e), map (fun r => skipn 10 (cells one_text 0 r)) (e_agents_out e))
  | Err _ => None
  end.
Lemma ages_shown : shown (first_day data_log_S (log_inp None ages)) =
  Some ([["age"; "work"]; ["age"; "work"]; ["age"; "work"]], [["10"; "farm"; ""]; ["10"; "farm"; ""]; ["10"; "farm"; ""]]).
Proof. vm_compute. reflexivity. Qed.
Definition herder : option (list row) := Some [[PS "location" 7; PS "animals" 8]; [PS "A" 9; PS "goats" 10]].
Lemma herder_shown : shown (first_day data_log_S (log_inp herder ages)) =
  Some ([["animals"]; ["age"; "work"]; ["age"; "work"]; ["age"; "work"]], [["goats"; ""]; ["10"; "farm"; ""]; ["10"; "farm"; ""]; ["10"; "farm"; ""]]).
Proof. vm_compute. reflexivity. Qed.

Local Opaque first_day set_up run.
Lemma ages_run : exists w sp d e g, set_up data_log_S ex_oracle (log_inp None ages) ex_draws = Ok w /\ in_agents (log_inp None ages) = None /\
  simulated 10 data_log_S ex_oracle (log_inp None ages) w 1 sp d e g /\ List.length (e_agents_out e) = 3%nat.
Proof.
  pose proof ages_shown as X. destruct (first_day _ _) as [[[[[w sp] d] e] g]|] eqn:E in X; [|discriminate].
  apply first_day_sim in E as [U Hs]. exists w, sp, d, e, g. split; [exact U|]. split; [reflexivity|]. split; [exact Hs|].
  cbn [shown] in X. injection X as _ X. apply (f_equal (@List.length _)) in X. now rewrite map_length in X.
Qed.
Lemma herder_run : exists w sp d e g a0 a r, set_up data_log_S ex_oracle (log_inp herder ages) ex_draws = Ok w /\
  simulated 10 data_log_S ex_oracle (log_inp herder ages) w 1 sp d e g /\
  nth_error (e_agents e) 0 = Some a0 /\ nth_error (e_agents e) 1 = Some a /\ In r (e_agents_out e) /\ nth_error (e_agents_out e) 1 = Some r /\
  nth_error (headings (map fst (a_attributes a0))) 10 = Some "animals" /\ ~ In "animals" (map fst (a_attributes a)) /\
  nth_error (cells one_text 0 r) 10 = Some "10" /\ List.length (cells one_text 0 r) <> List.length (headings (map fst (a_attributes a0))).
Proof.
  pose proof herder_shown as X. destruct (first_day _ _) as [[[[[w sp] d] e] g]|] eqn:E in X; [|discriminate].
  apply first_day_sim in E as [U Hs]. cbn [shown] in X. injection X as X Y.
  destruct (e_agents e) as [|a0 [|a l]] eqn:Ea; [discriminate X|discriminate X|].
  destruct (e_agents_out e) as [|r0 [|r rs]] eqn:Er; [discriminate Y|discriminate Y|].
  cbn [map] in X, Y. injection X as K0 K1 _. injection Y as _ C1 _.
  exists w, sp, d, e, g, a0, a, r. rewrite Ea, Er, K0, K1. split; [exact U|]. split; [exact Hs|].
  assert (V : map (val_text one_text) (ar_attributes r) ++ [""] = ["10"; "farm"; ""]) by exact C1. clear - V.
  split; [reflexivity|]. split; [reflexivity|]. split; [right; now left|]. split; [reflexivity|]. split; [reflexivity|].
  split; [cbn; intuition discriminate|]. split.
  - unfold cells. change (nth_error (map (val_text one_text) (ar_attributes r) ++ [""]) 0 = Some "10"). rewrite V. reflexivity.
  - unfold cells. rewrite app_length. rewrite V. discriminate.
Qed.

(** A place with a comma in its name *)
Definition comma_history : history :=
  map (pair (log_S 1)) [OAddLocation (PS "Aweil, Centre" 1) "r" 0 0 (Some "town") 1 (-1) 100 false "X" (Some []); OInsertAgent 0 []; OEvolve 10].
Definition comma_end : res (eco * rng) := run ex_oracle comma_history empty_eco ex_draws.
Lemma comma_ok : run ex_oracle comma_history empty_eco ex_draws = Ok (end_eco comma_end, end_rng comma_end).
Proof. apply end_ok. vm_compute. reflexivity. Qed.
Lemma comma_line : map (fun r => split comma (log_line one_text 0 r)) (e_agents_out (end_eco comma_end)) =
  [["0"; "0-0"; "Aweil"; " Centre"; "Aweil"; " Centre"; "1.0"; "1.0"; "False"; "1.0"; "1"; "1.0"; ""]].
Proof. vm_compute. reflexivity. Qed.
Lemma comma_case : exists h e g, no_clear h /\ run ex_oracle h empty_eco ex_draws = Ok (e, g) /\ all_have [] e /\
  map (fun r => split comma (log_line one_text 0 r)) (e_agents_out e) =
  [["0"; "0-0"; "Aweil"; " Centre"; "Aweil"; " Centre"; "1.0"; "1.0"; "False"; "1.0"; "1"; "1.0"; ""]].
Proof.
  exists comma_history, (end_eco comma_end), (end_rng comma_end). split; [repeat constructor|]. split; [exact comma_ok|]. split; [|exact comma_line].
  assert (X : map (fun a => map fst (a_attributes a)) (e_agents (end_eco comma_end)) = [[]]) by (vm_compute; reflexivity).
  revert X. generalize (end_eco comma_end). intros e X a Ha. apply (in_map (fun a => map fst (a_attributes a))) in Ha. rewrite X in Ha. now destruct Ha as [<-|[]].
Qed.

Definition cellb (s : string) : bool :=
  negb (existsb (Ascii.eqb comma) (list_ascii_of_string s)) && negb (existsb (Ascii.eqb newline) (list_ascii_of_string s)).
Lemma cellb_ok s : cellb s = true -> one_cell s.
Proof.
  assert (F : forall c l, negb (existsb (Ascii.eqb c) l) = true -> ~ In c l).
  { intros c l H X. apply negb_true_iff in H. assert (Y : existsb (Ascii.eqb c) l = true) by (apply existsb_exists; exists c; split; [exact X|apply Ascii.eqb_refl]). congruence. }
  unfold cellb. intro H. apply andb_prop in H as [A B]. split; now apply F.
Qed.
Lemma read_case : (forall q, one_cell (one_text q)) /\ Forall one_cell (map fst [("age", VInt 10); ("work", VStr "farm")]) /\
  Forall (fits_cells one_text) (e_agents_out logged) /\ (5 < List.length (e_agents_out logged))%nat.
Proof.
  split; [intro q; now apply cellb_ok|]. split; [repeat constructor; now apply cellb_ok|].
  assert (X : forallb (fun r => cellb (ar_home r) && cellb (ar_loc r) && forallb (fun v => cellb (val_text one_text v)) (ar_attributes r))%bool (e_agents_out logged) = true)
    by (vm_compute; reflexivity).
  assert (Y : Nat.ltb 5 (List.length (e_agents_out logged)) = true) by (vm_compute; reflexivity).
  split; [|now apply Nat.ltb_lt]. apply Forall_forall. intros r Hr. rewrite forallb_forall in X. apply X in Hr.
  apply andb_prop in Hr as [Hr C]. apply andb_prop in Hr as [A B]. split; [now apply cellb_ok|]. split; [now apply cellb_ok|].
  apply Forall_forall. intros v Hv. rewrite forallb_forall in C. now apply cellb_ok, C.
Qed.
