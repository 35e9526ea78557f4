(** * PropertiesCurves: C91, the pictures of a run

    Vocabulary: SpecCurves.v, SpecValidation.v; [plot_flee_output] is
    postprocessing/plot_flee_output.py (ErrorCurves.v), [output_table] the table of a run. *)

From Coq Require Import Qabs.
From Verif Require Import Base AgentLog RunScript Validation SpecRun SpecValidation ErrorCurves SpecCurves ValidationWitness CurvesProofs CurvesWitness Defaults ExampleRun RunWitness.
Local Open Scope string_scope.
Local Open Scope Q_scope.
Local Open Scope list_scope.
Local Opaque run_script plot_errors plot_camps.

(** ** C91: the curves of the error show for each day the distances between simulation and
    data in all camps, over the total of the data; the rescaled curve takes the share of
    each camp, applied to the total of the data and cut off to a whole number.  What is
    printed are their means and the number of days. *)
Theorem C91_curves : forall idp camps lines, good_table camps lines -> camps <> [] ->
  exists c, plot_errors (output_table idp camps lines) = Ok c /\
    Forall2 (fun r x => x == day_error sim_in (List.length camps) r) lines (c_normal c) /\
    Forall2 (fun r x => x == day_error whole_in (List.length camps) r) lines (c_rescaled c) /\
    c_len c = List.length lines /\
    (lines <> [] -> (exists m, c_mean c = Ok m /\ m == mean (map (day_error sim_in (List.length camps)) lines)) /\
                    (exists m, c_mean_rescaled c = Ok m /\ m == mean (map (day_error whole_in (List.length camps)) lines))).
Proof. exact curves_ok. Qed.
Print Assumptions C91_curves.
Example C91_curves_example : good_table k_names k_lines /\ exists c, plot_errors (output_table false k_names k_lines) = Ok c /\
  Forall2 Qeq (c_normal c) [11 # 41; 7 # 10] /\ Forall2 Qeq (c_rescaled c) [5 # 41; 1] /\ c_len c = 2%nat.
Proof. split; [exact k_good|exact k_curves]. Qed.
Theorem C91_no_camps : forall idp lines, plot_errors (output_table idp [] lines) = Err IndexError.
Proof. exact curves_none. Qed.
Print Assumptions C91_no_camps.

(** The curve is 0 on the days on which the simulation has the numbers of the data, and on
    no other; the rescaled one is 0 where it has the shares of the data. *)
Theorem C91_zero : forall idp camps lines c, good_table camps lines -> camps <> [] -> plot_errors (output_table idp camps lines) = Ok c ->
  Forall2 (fun r x => x == 0 <-> forall i, (i < List.length camps)%nat -> sim_in r i == data_in r i) lines (c_normal c) /\
  Forall2 (fun r x => right_shares (List.length camps) r -> x == 0) lines (c_rescaled c).
Proof. exact drawn_zero. Qed.
Print Assumptions C91_zero.
Example C91_zero_example : good_table w_names s_lines /\ Forall (right_shares (List.length w_names)) s_lines.
Proof. split; [exact s_good|exact s_shares]. Qed.

(** The rescaled error is at most 2 on each day on which the totals of the line are those
    of its camps. *)
Theorem C91_at_most_2 : forall idp camps lines c, good_table camps lines -> camps <> [] -> plot_errors (output_table idp camps lines) = Ok c ->
  Forall2 (fun r x => 0 <= x /\ (totals_right r -> x <= 2)) lines (c_rescaled c).
Proof. exact drawn_bound. Qed.
Print Assumptions C91_at_most_2.
Example C91_at_most_2_example : good_table k_names k_lines /\ Forall totals_right k_lines.
Proof. split; [exact k_good|exact k_totals]. Qed.

(** For the output of a run, on each day with registered people: the rescaled error is at
    most 2, and the curve has the distances of the column "Total error", which divides them
    by the registered people and not by the total of the camps. *)
Theorem C91_run : forall fuel S o inp g idp camps lines c, run_script fuel S o inp g = Ok (camps, lines) -> NoDup camps -> Forall good_name camps -> camps <> [] ->
  plot_errors (output_table idp camps lines) = Ok c ->
  Forall2 (fun r x => (0 < r_raw r)%Z -> x == r_error r * inject_Z (r_raw r) / people r) lines (c_normal c) /\
  Forall2 (fun r x => (0 < r_raw r)%Z -> (forall s d y, In (s, d, y) (r_camps r) -> (0 <= d)%Z) -> x <= 2) lines (c_rescaled c).
Proof. exact drawn_run. Qed.
Print Assumptions C91_run.
(** False: the error before rescaling is at most 2; the rescaled one also if the total is
    not that of the camps (on days without registered people it is written as 0). *)
Theorem C91_normal_at_most_2_refuted : ~ (forall n r, totals_right r -> List.length (r_camps r) = n -> day_error sim_in n r <= 2).
Proof. exact unbounded_false. Qed.
Print Assumptions C91_normal_at_most_2_refuted.
Theorem C91_no_total_refuted : ~ (forall n r, r_in_camps r = sumZ (map (fun x => fst (fst x)) (r_camps r)) ->
  Forall (fun x => (0 <= fst (fst x))%Z /\ (0 <= snd (fst x))%Z) (r_camps r) -> List.length (r_camps r) = n -> day_error whole_in n r <= 2).
Proof. exact no_total_false. Qed.
Print Assumptions C91_no_total_refuted.

Example C91_run_example : exists lines r, run_script 10 data_S ex_oracle run_inp ex_draws = Ok (["C"], lines) /\ In r lines /\ (0 < r_raw r)%Z /\
  (forall s d x, In (s, d, x) (r_camps r) -> (0 <= d)%Z) /\ ~ r_error r == day_error sim_in 1 r.
Proof. exact run_case. Qed.
(** False: the curve is the column "Total error". *)
Theorem C91_total_error_refuted : ~ (forall fuel S o inp g camps lines, run_script fuel S o inp g = Ok (camps, lines) ->
  forall r, In r lines -> (0 < r_raw r)%Z -> day_error sim_in (List.length camps) r == r_error r).
Proof. exact total_error_false. Qed.
Print Assumptions C91_total_error_refuted.

(** The pictures of the camps show the simulated numbers and the data of the camp they are
    named after, one for each camp; and those of the numbers of agents four columns. *)
Theorem C91_pictures : forall camps lines, plain_names camps -> Forall (fun r => List.length (r_camps r) = List.length camps) lines ->
  exists ps, plot_camps (output_table false camps lines) = Ok ps /\
    forall w y1 y2, In (w, y1, y2) ps <-> exists i, nth_error camps i = Some w /\ y1 = map (fun r => sim_in r i) lines /\ y2 = map (fun r => data_in r i) lines.
Proof. exact pictures_ok. Qed.
Print Assumptions C91_pictures.
Example C91_pictures_example : plain_names k_names /\ plot_camps (output_table false k_names k_lines) =
  Ok [("Lake", [20; 7], [30; 5]); ("Lake", [20; 7], [30; 5]); ("Lake", [20; 7], [30; 5]);
      ("B", [10; 0], [11; 5]); ("B", [10; 0], [11; 5]); ("B", [10; 0], [11; 5])].
Proof. split; [exact k_plain|exact k_camps]. Qed.
Theorem C91_agents : forall idp camps lines, plot_numagents (output_table idp camps lines) =
  Ok [map (fun r => inject_Z (r_total r)) lines; map (fun r => inject_Z (r_in_camps r)) lines;
      map (fun r => inject_Z (r_raw r)) lines; map (fun r => inject_Z (r_debt r)) lines].
Proof. exact numagents_ok. Qed.
Print Assumptions C91_agents.
Theorem C91_program : forall camps lines, good_table camps lines -> plain_names camps -> camps <> [] ->
  exists ps ns c, plot_flee_output (output_table false camps lines) = Ok (ps, ns, c) /\
    plot_camps (output_table false camps lines) = Ok ps /\ plot_numagents (output_table false camps lines) = Ok ns /\
    plot_errors (output_table false camps lines) = Ok c.
Proof. exact all_pictures. Qed.
Print Assumptions C91_program.
Example C91_program_example : good_table k_names k_lines /\ plain_names k_names.
Proof. split; [exact k_good|exact k_plain]. Qed.

(** The program fails for a camp whose name has two words, unless the first of them is a
    camp (then that camp is drawn in its place), and for the output of a run that counts
    IDPs. *)
Theorem C91_words : forall idp camps lines w ws, good_table camps lines -> ~ In "Total" camps -> In (join " " (w :: ws)) camps -> Forall one_word (w :: ws) ->
  w <> "Date" -> ~ In w camps -> plot_camps (output_table idp camps lines) = Err KeyError.
Proof. exact pictures_words. Qed.
Print Assumptions C91_words.
Example C91_words_example : good_table w_names w_lines /\ In (join " " ["Lake"; "camp"]) w_names /\ Forall one_word ["Lake"; "camp"] /\ ~ In "Lake" w_names.
Proof. split; [exact w_good|exact lake_camp]. Qed.
Theorem C91_idps : forall camps lines, good_table camps lines -> ~ In "Total" camps -> ~ In "total" camps ->
  plot_camps (output_table true camps lines) = Err KeyError.
Proof. exact pictures_idps. Qed.
Print Assumptions C91_idps.
(** False: there are pictures of the output of each run. *)
Theorem C91_words_refuted : ~ (forall camps lines, good_table camps lines -> camps <> [] -> exists ps, plot_camps (output_table false camps lines) = Ok ps).
Proof. exact two_words_false. Qed.
Print Assumptions C91_words_refuted.
Theorem C91_idps_refuted : ~ (forall camps lines, good_table camps lines -> plain_names camps -> camps <> [] ->
  exists ps, plot_camps (output_table true camps lines) = Ok ps).
Proof. exact idps_false. Qed.
Print Assumptions C91_idps_refuted.
