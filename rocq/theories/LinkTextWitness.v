(** * LinkTextWitness: files of the link log *)

From Verif Require Import Base State Flee Api SpecAgents SpecHistory SpecTraffic Defaults ExampleRun LinkLogWitness
  Coupling AgentLog SpecAgentLog LogWitness LinkLogText SpecLinkText.
Local Open Scope string_scope.
Local Open Scope Q_scope.
Local Open Scope list_scope.

(** An age that is a number and an age that is a text *)
Definition ages_history : history :=
  map (pair lnk_S) (firstn 5 lnk_build ++ [OAddAgent 0 [("age", VInt 30)]; OAddAgent 0 [("age", VStr "30")]; OEvolve 10]).
Definition ages_end : res (eco * rng) := run ex_oracle ages_history empty_eco ex_draws.
(** A place with a comma in its name *)
Definition aweil_history : history :=
  map (pair lnk_S) [OAddLocation (PS "Aweil, Centre" 1) "r" 0 0 (Some "town") 1 (-1) 100 false "X" (Some []);
    OAddLocation nB "q" 1 0 (Some "town") 1 (-1) 50 false "X" (Some []); OLinkUp "Aweil, Centre" "B" 100 false None;
    OInsertAgent 1 []; OEvolve 10].
Definition aweil_end : res (eco * rng) := run ex_oracle aweil_history empty_eco ex_draws.

Local Opaque run.
Lemma ages_reachable : reachable ex_oracle (end_eco ages_end) (end_rng ages_end).
Proof. exact (ex_intro _ _ (ex_intro _ _ (end_ok ages_end ltac:(vm_compute; reflexivity)))). Qed.
Lemma aweil_reachable : reachable ex_oracle (end_eco aweil_end) (end_rng aweil_end).
Proof. exact (ex_intro _ _ (ex_intro _ _ (end_ok aweil_end ltac:(vm_compute; reflexivity)))). Qed.

Lemma ages_cells : exists e g r r', reachable ex_oracle e g /\ In r (e_links_out e) /\ In r' (e_links_out e) /\
  lr_attribute r = Some ("age", VInt 30) /\ lr_attribute r' = Some ("age", VStr "30") /\ link_line one_text r = link_line one_text r'.
Proof.
  exists (end_eco ages_end), (end_rng ages_end), (LinkRow 0 "A" "B" 1 (Some ("age", VInt 30))), (LinkRow 0 "A" "B" 1 (Some ("age", VStr "30"))).
  split; [exact ages_reachable|]. split; [vm_compute; tauto|]. split; [vm_compute; tauto|]. split; [reflexivity|]. split; [reflexivity|].
  vm_compute. reflexivity.
Qed.
Lemma aweil_cells : exists e g, reachable ex_oracle e g /\
  table_of (link_file one_text (e_links_out e)) =
    [link_headings; ["0"; "Aweil"; " Centre"; "B"; "0"; "total"]; ["0"; "B"; "Aweil"; " Centre"; "1"; "total"]; [""]].
Proof. exists (end_eco aweil_end), (end_rng aweil_end). split; [exact aweil_reachable|vm_compute; reflexivity]. Qed.

(** The file of [lnk_eco 2] *)
Lemma small_cell s : existsb (fun c => Ascii.eqb c comma || Ascii.eqb c newline)%bool (list_ascii_of_string s) = false -> one_cell s.
Proof.
  intro H. split; intro I; rewrite <- not_true_iff_false in H; apply H; apply existsb_exists; eexists; (split; [exact I|]); reflexivity.
Qed.
Lemma lnk_fits : Forall (link_fits one_text) (e_links_out (lnk_eco 2)).
Proof.
  assert (H : forallb (fun r => negb (existsb (fun c => Ascii.eqb c comma || Ascii.eqb c newline)%bool (list_ascii_of_string (lr_start r))) &&
    negb (existsb (fun c => Ascii.eqb c comma || Ascii.eqb c newline)%bool (list_ascii_of_string (lr_end r))) &&
    match lr_attribute r with None => true | Some (a, v) =>
      negb (existsb (fun c => Ascii.eqb c comma || Ascii.eqb c newline)%bool (list_ascii_of_string a)) &&
      negb (existsb (fun c => Ascii.eqb c comma || Ascii.eqb c newline)%bool (list_ascii_of_string (val_text one_text v))) end)%bool (e_links_out (lnk_eco 2)) = true)
    by (vm_compute; reflexivity).
  rewrite forallb_forall in H. apply Forall_forall. intros r Hr. specialize (H r Hr).
  apply andb_prop in H as [H C]. apply andb_prop in H as [A B]. rewrite negb_true_iff in A, B.
  split; [now apply small_cell|]. split; [now apply small_cell|]. intros a v E. rewrite E in C.
  apply andb_prop in C as [C D]. rewrite negb_true_iff in C, D. split; now apply small_cell.
Qed.
Lemma lnk_totals :
  lines_of 1 "total" (table_of (link_file one_text (e_links_out (lnk_eco 2)))) =
    [["1"; "A"; "B"; "2"; "total"]; ["1"; "B"; "A"; "0"; "total"]; ["1"; "B"; "C"; "2"; "total"]; ["1"; "C"; "B"; "0"; "total"]] /\
  lines_of 1 "gender:f" (table_of (link_file one_text (e_links_out (lnk_eco 2)))) =
    [["1"; "A"; "B"; "1"; "gender:f"]; ["1"; "B"; "C"; "1"; "gender:f"]].
Proof. split; vm_compute; reflexivity. Qed.

(** The lines of [e] of day [t] from [a] to [b] *)
Definition lines_between (e : eco) (t : Z) (a b : string) : list link_row :=
  filter (fun r => (lr_time r =? t)%Z && String.eqb (lr_start r) a && String.eqb (lr_end r) b)%bool (e_links_out e).

(** Level 1 on the first day *)
Definition late_history : history :=
  map (pair lnk_S) lnk_build ++ [(up_s_log_link (fun _ => 1%Z) lnk_S, OEvolve 10); (lnk_S, OEvolve 10)].
Definition late_end : res (eco * rng) := run ex_oracle late_history empty_eco ex_draws.
Definition lnk_history (n : nat) : history := map (pair lnk_S) (lnk_build ++ repeat (OEvolve 10) n).

Lemma lnk_no_clear n : no_clear (lnk_history n).
Proof.
  unfold lnk_history, no_clear. rewrite map_app. apply Forall_app. split; [unfold lnk_build; repeat constructor|].
  induction n as [|n IH]; [constructor|]. cbn [repeat map]. constructor; [reflexivity|exact IH].
Qed.
Lemma lnk_well n : counted_well (lnk_history n).
Proof. unfold counted_well, lnk_history. apply Forall_map, Forall_forall. intros c _ _. reflexivity. Qed.
Lemma lnk_hist n : is_ok (lnk_run n) = true -> run ex_oracle (lnk_history n) empty_eco ex_draws = Ok (lnk_eco n, lnk_rng n).
Proof. exact (end_ok (lnk_run n)). Qed.
Lemma lnk_gender : forall a, In a (e_agents (lnk_eco 2)) -> NoDup (map fst (a_attributes a)) /\ In "gender" (map fst (a_attributes a)).
Proof.
  assert (H : map (fun a => map fst (a_attributes a)) (e_agents (lnk_eco 2)) = [["age"; "gender"]; ["age"; "gender"]; ["gender"]]) by (vm_compute; reflexivity).
  intros a Ha. apply (in_map (fun a => map fst (a_attributes a))) in Ha. rewrite H in Ha.
  destruct Ha as [<-|[<-|[<-|[]]]]; (split; [repeat constructor; cbn; intuition discriminate|cbn; tauto]).
Qed.
Lemma late_case : exists e g, run ex_oracle late_history empty_eco ex_draws = Ok (e, g) /\
  map lr_count (filter (fun r => match lr_attribute r with None => true | _ => false end) (lines_between e 1 "A" "B")) = [2]%Z /\
  filter (about "gender") (lines_between e 1 "A" "B") = [].
Proof.
  exists (end_eco late_end), (end_rng late_end). split; [apply (end_ok late_end); vm_compute; reflexivity|]. split; vm_compute; reflexivity.
Qed.
