(** * RunWitness: runs of the main program for the examples *)

From Coq Require Import Qabs Lqa.
From Verif Require Import Base Lemmas State Moving Crawling Flee DataTable Spawning InputGeography Dates DataFiles Analysis RunScript Api SpecAgents SpecHistory
  SpecRun Defaults ExampleRun NetworkWitness.
Local Open Scope string_scope.
Local Open Scope Q_scope.
Local Open Scope list_scope.

(** The registered total goes up, down and up again. *)
Definition run_files : directory := fun f =>
  if String.eqb f "total.csv" then Some [["2012-02-29"; "50"]; ["2012-03-02"; "130"]; ["2012-03-04"; "90"]; ["2012-03-06"; "190"]]
  else if String.eqb f "c.csv" then Some [["2012-02-29"; "30"]; ["2012-03-04"; "70"]; ["2012-03-06"; "100"]]
  else None.
Definition run_inp : run_input :=
  RunInput [["StartDate"; "2012-02-29"]; ["Length"; "5"]] 0 tables [] None run_files [["total"; "total.csv"]; ["C"; "c.csv"]] None 10 [] false 1.
Definition data_S : settings := up_s_sum_from_camps (fun _ => false) ex_S.
Definition conflict_S : settings :=
  up_s_displaced_per_conflict_day (fun _ => 5) (up_s_conflict_spawn_mode (fun _ => "constant") (up_s_conflict_driven_spawning (fun _ => true) data_S)).

(** Eleven agents; the registered total falls by four after day 2. *)
Lemma data_case : from_data data_S /\ exists lines, run_script 10 data_S ex_oracle run_inp ex_draws = Ok (["C"], lines) /\
  map r_date lines = ["2012-02-29"; "2012-03-01"; "2012-03-02"; "2012-03-03"; "2012-03-04"] /\
  map r_total lines = [3; 7; 11; 11; 11]%Z /\ map r_raw lines = [5; 9; 13; 11; 9]%Z /\ map r_debt lines = [0; 0; 0; 2; 4]%Z /\
  map r_in_camps lines = [3; 4; 7; 7; 7]%Z /\ map r_data lines = [3; 4; 5; 6; 7]%Z.
Proof.
  split; [split; reflexivity|].
  destruct (run_script 10 data_S ex_oracle run_inp ex_draws) as [[camps lines]|] eqn:E; [|vm_compute in E; discriminate].
  vm_compute in E. injection E as <- <-. eexists. split; [reflexivity|]. repeat split; reflexivity.
Qed.

(** Agents arrive at the camp although the total error is 0. *)
Lemma conflict_case : ~ from_data conflict_S /\ exists lines, run_script 10 conflict_S ex_oracle run_inp ex_draws = Ok (["C"], lines) /\
  map r_total lines = [5; 7; 9; 11; 13]%Z /\ map r_error lines = [0; 0; 0; 0; 0] /\
  exists r sim data err, nth_error lines 2 = Some r /\ r_camps r = [(sim, data, err)] /\ sim <> data /\ ~ err == 0.
Proof.
  split; [intros [H _]; discriminate|].
  destruct (run_script 10 conflict_S ex_oracle run_inp ex_draws) as [[camps lines]|] eqn:E; [|vm_compute in E; discriminate].
  vm_compute in E. injection E as <- <-. eexists. split; [reflexivity|]. split; [reflexivity|]. split; [reflexivity|].
  do 4 eexists. split; [reflexivity|]. split; [reflexivity|]. split; discriminate.
Qed.

(** Three agents in the camp before the first day *)
Lemma set_up_case : exists w, set_up data_S ex_oracle run_inp ex_draws = Ok w /\ w_camps w = ["C"] /\ w_start w = "2012-02-29" /\ w_end w = 5%Z /\
  map l_numAgents (e_locations (w_eco w)) = [0; 0; 3]%Z /\ map (fun l => sval (l_name l)) (e_locations (w_eco w)) = ["A"; "B"; "C"].
Proof.
  destruct (set_up data_S ex_oracle run_inp ex_draws) as [w|] eqn:E; [|vm_compute in E; discriminate]. exists w. split; [reflexivity|].
  assert (X : match set_up data_S ex_oracle run_inp ex_draws with
    | Ok w => (w_camps w, w_start w, w_end w, map l_numAgents (e_locations (w_eco w)), map (fun l => sval (l_name l)) (e_locations (w_eco w)))
    | Err _ => ([], "", 0%Z, [], []) end = (["C"], "2012-02-29", 5%Z, [0; 0; 3]%Z, ["A"; "B"; "C"])) by (vm_compute; reflexivity).
  rewrite E in X. injection X as -> -> -> -> ->. repeat split.
Qed.

Lemma nodup_ABC : NoDup ["A"; "B"; "C"].
Proof. repeat constructor; cbn; intuition discriminate. Qed.

Lemma mase_case : calculate_mase [3; 5; 8] [2; 5; 9] [2; 3; 5] 0 = Ok (2222 # 10000).
Proof. vm_compute. reflexivity. Qed.
