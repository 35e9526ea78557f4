(** * PropertiesCombined: C89

    The combined output of several instances of a coupled model.  The vocabulary is in
    SpecCombined.v ([well_formed], [value_on], [one_per_day], [is_mean], [so_far]). *)

From Verif Require Import Base CombinedOutput SpecCombined CombinedProofs CombinedWitness.
Local Open Scope string_scope.
Local Open Scope Q_scope.
Local Open Scope list_scope.

(** C89. With files of the same columns the combination succeeds, and what it writes is
    the file of the last instance, whatever the others say. *)
Theorem C89_last_instance : forall cols before f, Forall (well_formed cols) (before ++ [f]) -> sum_output (before ++ [f]) = Ok f.
Proof. exact sum_writes_last. Qed.
Print Assumptions C89_last_instance.

(** Whenever it succeeds, this is what it writes. *)
Theorem C89_never_more : forall fs f, sum_output fs = Ok f -> exists before, fs = before ++ [f].
Proof. exact sum_is_last. Qed.
Print Assumptions C89_never_more.

(** So the file holds the mean of the instances if all say the same, in particular if
    there is only one. *)
Theorem C89_agreeing_instances : forall fs f d c v, sum_output fs = Ok f -> (forall f', In f' fs -> f' = f) ->
  value_on f d c v -> is_mean fs d c v.
Proof. exact sum_of_agreeing. Qed.
Print Assumptions C89_agreeing_instances.

(** With one line per day there is only one mean. *)
Theorem C89_mean_unique : forall fs d c m n, Forall one_per_day fs -> fs <> [] -> is_mean fs d c m -> is_mean fs d c n -> m == n.
Proof. exact mean_unique. Qed.
Print Assumptions C89_mean_unique.

Example C89_example : Forall (well_formed ["Day"; "A sim"; "A error"]) ([run_0] ++ [run_1]) /\
  Forall one_per_day ([run_0] ++ [run_1]) /\ value_on run_0 1 "A sim" 10 /\ value_on run_1 1 "A sim" 20 /\
  is_mean ([run_0] ++ [run_1]) 1 "A sim" 15 /\ is_mean [run_0; run_0] 1 "A sim" 10.
Proof. exact combined_case. Qed.

(** With two instances that differ it does not. *)
Theorem C89_mean_refuted : exists fs f d c v m, Forall (well_formed ["Day"; "A sim"; "A error"]) fs /\ Forall one_per_day fs /\
  sum_output fs = Ok f /\ value_on f d c v /\ is_mean fs d c m /\ ~ v == m.
Proof. exact not_the_mean. Qed.
Print Assumptions C89_mean_refuted.

(** The files exist from the start of the instances, so that waiting for them is not
    waiting for their ends: at any moment, with any number of lines written by each
    instance, the combination succeeds, and writes as many lines as the last instance has
    written by then. *)
Theorem C89_at_any_moment : forall cols before t k, Forall (fun tk => well_formed cols (fst tk)) (before ++ [(t, k)]) ->
  sum_output (map so_far (before ++ [(t, k)])) = Ok (Frame (f_columns t) (firstn k (f_rows t))).
Proof. exact sum_early. Qed.
Print Assumptions C89_at_any_moment.

(** So days can be missing although the first instance has come to its end. *)
Theorem C89_all_days_refuted : exists f, sum_output (map so_far [(run_0, 2%nat); (run_1, 1%nat)]) = Ok f /\
  f_rows (so_far (run_0, 2%nat)) = f_rows run_0 /\ List.length (f_rows run_1) = 2%nat /\ List.length (f_rows f) = 1%nat.
Proof. exact missing_days. Qed.
Print Assumptions C89_all_days_refuted.
