(** * RunInputsWitness: runs of the main program with a file of corrections *)

From Verif Require Import Base Lemmas State Flee DataTable Spawning InputGeography Dates DataFiles RunScript Api Pflee ParApi RunPar SpecFiles SpecRunPar
  FileProofs TableProofs DataWitness Defaults ExampleRun NetworkWitness RunWitness RunParWitness.
Local Open Scope string_scope.
Local Open Scope Q_scope.
Local Open Scope list_scope.

(** The refugees of the camp were registered anew on 4 March. *)
Definition corr_rows : csv := [["C"; "2012-03-04"]].
Definition corr_inp : run_input :=
  RunInput [["StartDate"; "2012-02-29"]; ["Length"; "5"]] 0 tables [] None run_files [["total"; "total.csv"]; ["C"; "c.csv"]] (Some corr_rows) 10 [] false 0.

Lemma corr_table : exists t, new_table run_files [["total"; "total.csv"]; ["C"; "c.csv"]] "2012-02-29" 10 (s_EmptyCampsOnDay0 data_S) = Ok t /\ days_ok t /\
  map (map (fun r => Qred (snd r))) (d_tables t) = [[5; 13; 9; 19]; [3; 7; 10]].
Proof.
  destruct (new_table _ _ _ _ _) as [t|] eqn:E; [|vm_compute in E; discriminate]. exists t. split; [reflexivity|]. vm_compute in E. injection E as <-. split; [|reflexivity].
  split; [reflexivity|].
  assert (forall (t : series) l, map fst t = map inject_Z l -> whole_days t) as W.
  { intros t l X r Hr. apply (in_map fst) in Hr. rewrite X in Hr. apply in_map_iff in Hr as (n & <- & _). exists n. reflexivity. }
  repeat constructor; try (apply incr_check; reflexivity).
  - apply (W _ [0; 2; 4; 6]%Z); reflexivity.
  - apply (W _ [0; 4; 6]%Z); reflexivity.
Qed.

Lemma corr_set_up : exists w, set_up data_S ex_oracle corr_inp ex_draws = Ok w /\ in_corrections corr_inp = Some corr_rows /\ w_camps w = ["C"] /\
  map (map (fun r => Qred (snd r))) (d_tables (w_data w)) = [[5; 13; 9; 19]; [7; 7; 10]] /\ map l_numAgents (e_locations (w_eco w)) = [0; 0; 7]%Z.
Proof.
  destruct (set_up data_S ex_oracle corr_inp ex_draws) as [w|] eqn:E; [|vm_compute in E; discriminate]. exists w. split; [reflexivity|].
  assert (X : match set_up data_S ex_oracle corr_inp ex_draws with
    | Ok w => (w_camps w, map (map (fun r => Qred (snd r))) (d_tables (w_data w)), map l_numAgents (e_locations (w_eco w)))
    | Err _ => ([], [], []) end = (["C"], [[5; 13; 9; 19]; [7; 7; 10]], [0; 0; 7]%Z)) by (vm_compute; reflexivity).
  rewrite E in X. injection X as -> -> ->. repeat split.
Qed.

Lemma corr_started : exists w st, started rp_S ex_oracle corr_inp rp_draws w st /\ w_start w = "2012-02-29" /\
  map (map (fun r => Qred (snd r))) (d_tables (w_data w)) = [[5; 13; 9; 19]; [7; 7; 10]].
Proof.
  unfold started. change (pstart rp_draws) with [(empty_par 0 2, ex_draws); (empty_par 1 2, rng_const (3 # 4))].
  destruct (par_set_up rp_S ex_oracle corr_inp (empty_par 0 2) ex_draws) as [p|] eqn:E; [|vm_compute in E; discriminate].
  destruct (par_set_up rp_S ex_oracle corr_inp (empty_par 1 2) (rng_const (3 # 4))) as [q|] eqn:F; [|vm_compute in F; discriminate].
  assert (X : match par_set_up rp_S ex_oracle corr_inp (empty_par 0 2) ex_draws, par_set_up rp_S ex_oracle corr_inp (empty_par 1 2) (rng_const (3 # 4)) with
    | Ok p, Ok q => w_start (p_world q) = w_start (p_world p) /\ w_end (p_world q) = w_end (p_world p) /\ w_geo (p_world q) = w_geo (p_world p) /\
                    w_data (p_world q) = w_data (p_world p) /\ w_camps (p_world q) = w_camps (p_world p) /\
                    w_start (p_world p) = "2012-02-29" /\ map (map (fun r => Qred (snd r))) (d_tables (w_data (p_world p))) = [[5; 13; 9; 19]; [7; 7; 10]]
    | _, _ => False end) by (vm_compute; repeat split).
  rewrite E, F in X. destruct X as (X1 & X2 & X3 & X4 & X5 & X6 & X7).
  exists (p_world p), [(p_eco p, p_rng p); (p_eco q, p_rng q)]. split; [|split; assumption].
  constructor; [|constructor; [|constructor]]; cbn [fst snd].
  - exists p. repeat split. exact E.
  - exists q. split; [exact F|]. auto 8.
Qed.
