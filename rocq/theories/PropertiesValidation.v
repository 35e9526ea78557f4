(** * PropertiesValidation: C85, the report that compares a simulation with the data

    Vocabulary: SpecValidation.v; [run_script] is the main program (RunScript.v), [validate]
    is extract-validation-results.py (Validation.v), [output_table] the table of a run. *)

From Coq Require Import Qabs.
From Verif Require Import Base Analysis RunScript Validation SpecRun SpecValidation ValidationProofs ValidationReport ValidationFacts ValidationWitness Defaults ExampleRun RunWitness.
Local Open Scope string_scope.
Local Open Scope Q_scope.
Local Open Scope list_scope.
Local Opaque run_script validate.

(** ** C85: the camps of the report are those of the run, and its errors are the mean over
    the days of the distances between simulation and data, over the total of the data.  The
    rescaled error takes the shares of the simulated people in camps; it adds numbers rounded
    to four digits. *)
Theorem C85_errors : forall idp camps lines, good_table camps lines -> camps <> [] -> (31 <= List.length lines)%nat ->
  exists v, validate (output_table idp camps lines) = Ok v /\ map fst (v_camps v) = camps /\ v_period v = List.length lines /\
    (exists m, v_normal v = Ok m /\ m == mean (map (day_error sim_in (List.length camps)) lines)) /\
    (exists m, v_rescaled v = Ok m /\
       Qabs (m - mean (map (day_error rescaled_in (List.length camps)) lines)) <= inject_Z (Z.of_nat (List.length camps)) * (1 # 20000)).
Proof. exact report_errors. Qed.
Print Assumptions C85_errors.
Example C85_errors_example : good_table w_names w_lines /\ (31 <= List.length w_lines)%nat /\
  exists v, validate (output_table false w_names w_lines) = Ok v /\ map fst (v_camps v) = ["Lake camp"; "B"] /\
  (exists m, v_normal v = Ok m /\ m == 1 # 4) /\ (exists m, v_rescaled v = Ok m /\ m == 18333 # 200000).
Proof.
  split; [exact w_good|]. split; [exact w_long|]. destruct w_case as (v & V & C & M1 & M2 & _). exists v. auto.
Qed.

(** The output of the main program is such a table, if the camps have different names made
    of words; the rescaled numbers of a day add up to the total of the data. *)
Theorem C85_run : forall fuel S o inp g camps lines, run_script fuel S o inp g = Ok (camps, lines) -> NoDup camps -> Forall good_name camps ->
  good_table camps lines.
Proof. exact run_table. Qed.
Print Assumptions C85_run.
Theorem C85_run_rescaled : forall fuel S o inp g camps lines, run_script fuel S o inp g = Ok (camps, lines) ->
  forall r, In r lines -> (0 < r_in_camps r)%Z -> sumQ (map (rescaled_in r) (seq 0 (List.length camps))) == inject_Z (r_data r).
Proof. exact run_rescaled. Qed.
Print Assumptions C85_run_rescaled.
Example C85_run_example : exists lines, run_script 10 data_S ex_oracle run_inp ex_draws = Ok (["C"], lines) /\ NoDup ["C"] /\ Forall good_name ["C"] /\
  map r_in_camps lines = [3; 4; 7; 7; 7]%Z.
Proof. exact run_names. Qed.

(** Without camps, or for fewer than 31 days, there is no report. *)
Theorem C85_short : forall idp camps lines, good_table camps lines -> camps = [] \/ (List.length lines <= 30)%nat ->
  validate (output_table idp camps lines) = Err IndexError.
Proof. exact validate_short. Qed.
Print Assumptions C85_short.
Example C85_short_example : good_table w_names (firstn 30 w_lines) /\ validate (output_table false w_names (firstn 30 w_lines)) = Err IndexError.
Proof. exact short_case. Qed.

(** For each camp: the mean distance, the mean distance of the rescaled simulation, that
    over the total of the data, and the number of observations *)
Theorem C85_camp : forall idp camps lines v, good_table camps lines -> camps <> [] -> (31 <= List.length lines)%nat ->
  validate (output_table idp camps lines) = Ok v ->
  forall i c le, nth_error (v_camps v) i = Some (c, le) ->
    nth_error camps i = Some c /\
    (exists m, le_abs_ave le = Ok m /\ m == mean (map (fun r => Qabs (sim_in r i - data_in r i)) lines)) /\
    (exists m, le_resc_ave le = Ok m /\ Qabs (m - mean (map (fun r => Qabs (rescaled_in r i - data_in r i)) lines)) <= 1 # 20000) /\
    (exists m, le_ratio_ave le = Ok m /\ m == mean (map (fun r => Qabs (sim_in r i - data_in r i) / people r) lines)) /\
    le_N le = sumQ (map (fun r => data_in r i) lines).
Proof. exact report_camp. Qed.
Print Assumptions C85_camp.

(** The scaled errors of a camp compare the rescaled simulation with the naive forecasts;
    there is one exactly if the forecast exists and is wrong on a day after its training day. *)
Theorem C85_scaled : forall idp camps lines v, good_table camps lines -> camps <> [] -> (31 <= List.length lines)%nat ->
  validate (output_table idp camps lines) = Ok v ->
  forall i c le n t, nth_error (v_camps v) i = Some (c, le) ->
    ((exists x, le_mase le n t = Ok x) <-> naive_exists lines i n t /\ naive_wrong lines i n t) /\
    forall x, le_mase le n t = Ok x -> rounded4 (scaled_error lines i n t) x.
Proof. exact report_scaled. Qed.
Print Assumptions C85_scaled.
Example C85_scaled_example : naive_exists w_lines 0 Sloped Late /\ naive_wrong w_lines 0 Sloped Late /\
  exists v, validate (output_table false w_names w_lines) = Ok v /\
  exists a b, nth_error (v_camps v) 0 = Some ("Lake camp", a) /\ nth_error (v_camps v) 1 = Some ("B", b) /\ le_N a == 1140 /\ le_N b == 460 /\
    (exists x, le_mase a Sloped Late = Ok x /\ x == 19 # 10000) /\ (exists x, le_mase b Sloped Late = Ok x /\ x == 9 # 2000).
Proof.
  split; [apply w_exists|]. split; [apply w_exists|]. destruct w_case as (v & V & _ & _ & _ & _ & _ & H). exists v. auto.
Qed.

(** The total is the mean of the camps, weighted by their observations: it exists if all
    camps have an error, and it is between the smallest and the largest. *)
Theorem C85_totals : forall idp camps lines v, good_table camps lines -> camps <> [] -> (31 <= List.length lines)%nat ->
  validate (output_table idp camps lines) = Ok v ->
  forall n t, let total := sumQ (map (fun p => le_N (snd p)) (v_camps v)) in
    ((exists m, v_mase v n t = Ok m) <-> ~ total == 0 /\ forall c le, In (c, le) (v_camps v) -> exists x, le_mase le n t = Ok x) /\
    (forall m, v_mase v n t = Ok m -> exists xs, Forall2 (fun p x => le_mase (snd p) n t = Ok x) (v_camps v) xs /\
       m == weighted (combine (map (fun p => le_N (snd p)) (v_camps v)) xs) / total) /\
    (forall m lo hi, v_mase v n t = Ok m -> (forall c le, In (c, le) (v_camps v) -> 0 <= le_N le) ->
       (forall c le x, In (c, le) (v_camps v) -> le_mase le n t = Ok x -> lo <= x <= hi) -> lo <= m <= hi).
Proof. exact report_totals. Qed.
Print Assumptions C85_totals.
Example C85_totals_example : exists v, validate (output_table false w_names w_lines) = Ok v /\
  (exists m, v_mase v Flat Early = Ok m /\ m == 6111 # 5000) /\ (exists m, v_mase v Sloped Late = Ok m /\ m == 1059 # 400000).
Proof. destruct w_case as (v & V & _ & _ & _ & A & B & _). exists v. auto. Qed.

(** A simulation with the shares of the data has no rescaled and no scaled error; one with
    the numbers of the data has no error at all. *)
Theorem C85_shares : forall idp camps lines v, good_table camps lines -> camps <> [] -> (31 <= List.length lines)%nat ->
  validate (output_table idp camps lines) = Ok v -> Forall (right_shares (List.length camps)) lines ->
  (exists m, v_rescaled v = Ok m /\ m == 0) /\
  (forall n t m, v_mase v n t = Ok m -> m == 0) /\
  forall c le n t x, In (c, le) (v_camps v) -> le_mase le n t = Ok x -> x == 0.
Proof. exact report_shares. Qed.
Print Assumptions C85_shares.
Example C85_shares_example : good_table w_names s_lines /\ (31 <= List.length s_lines)%nat /\ Forall (right_shares (List.length w_names)) s_lines.
Proof. split; [exact s_good|]. split; [apply Nat.leb_le; reflexivity|exact s_shares]. Qed.
Theorem C85_numbers : forall idp camps lines v, good_table camps lines -> camps <> [] -> (31 <= List.length lines)%nat ->
  validate (output_table idp camps lines) = Ok v -> Forall (right_numbers (List.length camps)) lines ->
  exists m, v_normal v = Ok m /\ m == 0.
Proof. exact report_numbers. Qed.
Print Assumptions C85_numbers.
Example C85_numbers_example : good_table w_names p_lines /\ (31 <= List.length p_lines)%nat /\ Forall (right_numbers (List.length w_names)) p_lines.
Proof. split; [exact p_good|]. split; [apply Nat.leb_le; reflexivity|exact p_right]. Qed.

(** Simulating with [k] agents for each changes no rescaled and no scaled error. *)
Theorem C85_times : forall idp camps lines k v v', good_table camps lines -> camps <> [] -> (31 <= List.length lines)%nat -> (0 < k)%Z ->
  validate (output_table idp camps lines) = Ok v -> validate (output_table idp camps (map (times k) lines)) = Ok v' ->
  (exists m m', v_rescaled v = Ok m /\ v_rescaled v' = Ok m' /\ m == m') /\
  (forall n t, v_mase v' n t = v_mase v n t) /\
  Forall2 (fun p p' => fst p' = fst p /\ le_resc (snd p') = le_resc (snd p) /\ forall n t, le_mase (snd p') n t = le_mase (snd p) n t) (v_camps v) (v_camps v').
Proof. exact report_times. Qed.
Print Assumptions C85_times.
Example C85_times_example : exists v, validate (output_table false w_names (map (times 3) w_lines)) = Ok v /\
  (exists m, v_normal v = Ok m /\ m == 5 # 4) /\ (exists m, v_rescaled v = Ok m /\ m == 18333 # 200000).
Proof. exact times_case. Qed.

(** Names with two spaces: no report, as there is no such column. *)
Theorem C85_spaces_refuted : ~ (forall idp camps lines, NoDup camps -> Forall (fun r => List.length (r_camps r) = List.length camps) lines -> camps <> [] ->
  (31 <= List.length lines)%nat -> exists v, validate (output_table idp camps lines) = Ok v).
Proof. exact spaces_false. Qed.
Print Assumptions C85_spaces_refuted.

(** A camp whose name says " sim" is counted three times. *)
Theorem C85_sim_refuted : exists lines v, validate (output_table false ["Al simba"] lines) = Ok v /\ map fst (v_camps v) = ["Al simba"; "Al simba"; "Al simba"] /\
  (exists m, v_normal v = Ok m /\ m == 1 # 2) /\ mean (map (day_error sim_in 1) lines) == 1 # 6.
Proof. exact sim_false. Qed.
Print Assumptions C85_sim_refuted.

(** The sloped forecast is not the line through the number of the training day: it has a
    distance from data that are this line. *)
Theorem C85_sloped_refuted : ~ (forall idp camps lines v i c le, good_table camps lines -> (31 <= List.length lines)%nat ->
  validate (output_table idp camps lines) = Ok v -> nth_error (v_camps v) i = Some (c, le) ->
  (forall day, (day < List.length lines)%nat -> value_on lines i day == inject_Z (Z.of_nat day) * (value_on lines i 7 / 7)) ->
  ~ exists x, le_mase le Sloped Early = Ok x).
Proof. exact sloped_false. Qed.
Print Assumptions C85_sloped_refuted.

(** One camp without an error, for instance because its numbers do not change, leaves no total. *)
Theorem C85_total_refuted : ~ (forall idp camps lines v n t, good_table camps lines -> camps <> [] -> (31 <= List.length lines)%nat ->
  validate (output_table idp camps lines) = Ok v -> (exists c le x, In (c, le) (v_camps v) /\ le_mase le n t = Ok x /\ 0 < le_N le) ->
  exists m, v_mase v n t = Ok m).
Proof. exact total_false. Qed.
Print Assumptions C85_total_refuted.
