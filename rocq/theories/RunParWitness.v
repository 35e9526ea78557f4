(** * RunParWitness: runs of the main program on several processes for the examples *)

From Verif Require Import Base Lemmas State Flee DataTable Spawning InputGeography Dates DataFiles Analysis RunScript Api Pflee ParApi RunPar SpecAgents SpecHistory
  SpecRun SpecRunPar Defaults ExampleRun NetworkWitness RunWitness.
Local Open Scope string_scope.
Local Open Scope Q_scope.
Local Open Scope list_scope.

Definition rp_S : settings := up_s_sum_from_camps (fun _ => false) default_settings.
Definition rp_head : list string := ["#name"; "region"; "country"; "lat"; "lon"; "location_type"; "conflict_date"; "pop/cap"; "conflict_intensity"].
Definition rp_tables (rows links : list (list string)) (closures : list (list pystr)) : igeo :=
  match read_locations (map cells (rp_head :: rows)), read_links (map cells (["#name1"; "name2"; "distance"; "forced_redirection"] :: links)) with
  | Ok (cols, locs), Ok (lcols, links) => IGeo locs cols links lcols [] (Some closures) None [] []
  | _, _ => tables
  end.
Definition rp_input (t : igeo) (idps : Z) : run_input :=
  RunInput [["StartDate"; "2012-02-29"]; ["Length"; "5"]] 0 t [] (Some agent_rows) run_files
           [["total"; "total.csv"]; ["C"; "c.csv"]; ["D"; "c.csv"]] None 10 [] false idps.
Definition row_A : list string := ["A"; "north"; "X"; "1.5"; "2"; "conflict_zone"; "0"; "500"; "0.5"].
Definition row_B : list string := ["B"; ""; "X"; ""; "3"; "conflict_zone"; "7"; "200"].
Definition row_C : list string := ["C"; "east"; "Y"; "4"; "3"; "Camp"; ""; "90"].
Definition row_D : list string := ["D"; "east"; "Y"; "4"; "7"; "village"; ""; "90"].

(** No closures: three locations, agents in A and C, five days *)
Definition rp_inp : run_input := rp_input (rp_tables [row_A; row_B; row_C] [["A"; "B"; "100"; "1"]; ["C"; "B"; "40.5"; "2"]; ["A"; "C"; "300"]] []) 0.
Definition rp_draws : list rng := [ex_draws; rng_const (3 # 4)].
Definition rp_more_draws : list rng := [ex_draws; rng_const (3 # 4); rng_const (1 # 3)].

Lemma rp_from_data : from_data rp_S /\ (5 # 1000 <= s_DefaultMoveChance rp_S) /\ ig_closures (in_geo rp_inp) = Some [].
Proof. split; [split; reflexivity|]. split; [vm_compute; discriminate|]. vm_compute. reflexivity. Qed.

Lemma rp_two : exists lines, run_par_script 10 Classic HighLatency rp_S ex_oracle rp_inp rp_draws = Ok [(Some ["C"], lines); (None, [])] /\
  map r_date lines = ["2012-02-29"; "2012-03-01"; "2012-03-02"; "2012-03-03"; "2012-03-04"] /\
  map r_total lines = [6; 10; 14; 14; 14]%Z /\ map r_raw lines = [5; 9; 13; 11; 9]%Z /\ map r_debt lines = [0; 0; 0; 2; 4]%Z /\
  map r_in_camps lines = [4; 4; 5; 6; 6]%Z /\ map r_data lines = [3; 4; 5; 6; 7]%Z.
Proof.
  destruct (run_par_script 10 Classic HighLatency rp_S ex_oracle rp_inp rp_draws) as [outs|] eqn:E; [|vm_compute in E; discriminate].
  vm_compute in E. injection E as <-. eexists. split; [reflexivity|]. repeat split; reflexivity.
Qed.
Lemma rp_three : exists lines, run_par_script 10 Classic LowLatency rp_S ex_oracle rp_inp rp_more_draws = Ok [(Some ["C"], lines); (None, []); (None, [])] /\
  map r_total lines = [6; 10; 14; 14; 14]%Z /\ map r_in_camps lines = [5; 5; 6; 6; 6]%Z.
Proof.
  destruct (run_par_script 10 Classic LowLatency rp_S ex_oracle rp_inp rp_more_draws) as [outs|] eqn:E; [|vm_compute in E; discriminate].
  vm_compute in E. injection E as <-. eexists. split; [reflexivity|]. split; reflexivity.
Qed.
Lemma rp_serial : exists lines, run_script 10 rp_S ex_oracle rp_inp ex_draws = Ok (["C"], lines) /\
  map r_total lines = [6; 10; 14; 14; 14]%Z /\ map r_in_camps lines = [4; 6; 6; 6; 6]%Z.
Proof.
  destruct (run_script 10 rp_S ex_oracle rp_inp ex_draws) as [[camps lines]|] eqn:E; [|vm_compute in E; discriminate].
  vm_compute in E. injection E as <- <-. eexists. split; [reflexivity|]. split; reflexivity.
Qed.


Lemma rp_started : exists w st, started rp_S ex_oracle rp_inp rp_draws w st /\ w_camps w = ["C"] /\ w_start w = "2012-02-29" /\ w_end w = 5%Z /\ List.length st = 2%nat.
Proof.
  unfold started. change (pstart rp_draws) with [(empty_par 0 2, ex_draws); (empty_par 1 2, rng_const (3 # 4))].
  destruct (par_set_up rp_S ex_oracle rp_inp (empty_par 0 2) ex_draws) as [p|] eqn:E; [|vm_compute in E; discriminate].
  destruct (par_set_up rp_S ex_oracle rp_inp (empty_par 1 2) (rng_const (3 # 4))) as [q|] eqn:F; [|vm_compute in F; discriminate].
  assert (X : match par_set_up rp_S ex_oracle rp_inp (empty_par 0 2) ex_draws, par_set_up rp_S ex_oracle rp_inp (empty_par 1 2) (rng_const (3 # 4)) with
    | Ok p, Ok q => w_start (p_world q) = w_start (p_world p) /\ w_end (p_world q) = w_end (p_world p) /\ w_geo (p_world q) = w_geo (p_world p) /\
                    w_data (p_world q) = w_data (p_world p) /\ w_camps (p_world q) = w_camps (p_world p) /\
                    w_camps (p_world p) = ["C"] /\ w_start (p_world p) = "2012-02-29" /\ w_end (p_world p) = 5%Z
    | _, _ => False end) by (vm_compute; repeat split).
  rewrite E, F in X. destruct X as (X1 & X2 & X3 & X4 & X5 & X6).
  exists (p_world p), [(p_eco p, p_rng p); (p_eco q, p_rng q)]. split; [|repeat split; apply X6].
  constructor; [|constructor; [|constructor]]; cbn [fst snd].
  - exists p. repeat split. exact E.
  - exists q. split; [exact F|]. auto 8.
Qed.

(** The log level idp_totals *)
Definition rp_idps : run_input := rp_input (rp_tables [row_A; row_B; row_C] [["A"; "B"; "100"; "1"]; ["C"; "B"; "40.5"; "2"]; ["A"; "C"; "300"]] []) 1.
Lemma rp_idps_fail : run_par_script 10 Classic HighLatency rp_S ex_oracle rp_idps rp_draws = Err NameError /\
  is_ok (run_script 10 rp_S ex_oracle rp_idps ex_draws) = true.
Proof. split; vm_compute; reflexivity. Qed.

(** A village where agents rarely move: a camp for run_par.py only *)
Definition village_S : settings := up_s_DefaultMoveChance (fun _ => 1 # 1000) rp_S.
Definition village_inp : run_input := rp_input (rp_tables [row_A; row_C; row_D] [["A"; "C"; "300"]; ["A"; "D"; "100"]] []) 0.
Lemma village_case : exists lines lines', from_data village_S /\ ig_closures (in_geo village_inp) = Some [] /\
  run_script 10 village_S ex_oracle village_inp ex_draws = Ok (["C"], lines) /\
  run_par_script 10 Classic HighLatency village_S ex_oracle village_inp [ex_draws] = Ok [(Some ["C"; "D"], lines')] /\
  map r_total lines = [6; 10; 14; 14; 14]%Z /\ map r_total lines' = [9; 13; 17; 17; 17]%Z.
Proof.
  destruct (run_script 10 village_S ex_oracle village_inp ex_draws) as [[camps lines]|] eqn:E; [|vm_compute in E; discriminate].
  destruct (run_par_script 10 Classic HighLatency village_S ex_oracle village_inp [ex_draws]) as [outs|] eqn:F; [|vm_compute in F; discriminate].
  vm_compute in E, F. injection E as <- <-. injection F as <-. do 2 eexists. split; [split; reflexivity|]. split; [vm_compute; reflexivity|].
  split; [reflexivity|]. split; [reflexivity|]. split; reflexivity.
Qed.

(** The border is closed while agents are on the road. *)
Definition border_inp : run_input :=
  rp_input (rp_tables [row_A; row_B; row_C] [["A"; "B"; "600"]; ["C"; "B"; "40.5"]; ["A"; "C"; "900"]] [cells ["country"; "X"; "Y"; "1"; "9"]]) 0.
Lemma border_case : exists lines lines', from_data rp_S /\ (5 # 1000 <= s_DefaultMoveChance rp_S) /\
  run_script 10 rp_S ex_oracle border_inp (rng_const (7 # 8)) = Ok (["C"], lines) /\
  run_par_script 10 Classic HighLatency rp_S ex_oracle border_inp [rng_const (7 # 8); rng_const (7 # 8)] = Ok [(Some ["C"], lines'); (None, [])] /\
  map r_total lines = [6; 10; 14; 14; 14]%Z /\ map r_total lines' = [6; 8; 14; 14; 14]%Z.
Proof.
  destruct (run_script 10 rp_S ex_oracle border_inp (rng_const (7 # 8))) as [[camps lines]|] eqn:E; [|vm_compute in E; discriminate].
  destruct (run_par_script 10 Classic HighLatency rp_S ex_oracle border_inp [rng_const (7 # 8); rng_const (7 # 8)]) as [outs|] eqn:F; [|vm_compute in F; discriminate].
  vm_compute in E, F. injection E as <- <-. injection F as <-. do 2 eexists. split; [split; reflexivity|]. split; [vm_compute; discriminate|].
  split; [reflexivity|]. split; [reflexivity|]. split; reflexivity.
Qed.
