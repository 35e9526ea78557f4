(** * CombinedWitness: two instances *)

From Coq Require Import Lqa.
From Verif Require Import Base CombinedOutput SpecCombined CombinedProofs.
Local Open Scope string_scope.
Local Open Scope Q_scope.
Local Open Scope list_scope.

Definition run_0 : frame := Frame ["Day"; "A sim"; "A error"] [[0; 4; 0]; [1; 10; (1 # 2)]].
Definition run_1 : frame := Frame ["Day"; "A sim"; "A error"] [[0; 4; 0]; [1; 20; (1 # 4)]].

Lemma wf_0 : well_formed ["Day"; "A sim"; "A error"] run_0.
Proof. split; [reflexivity|]. split; [now left|]. repeat constructor. Qed.
Lemma wf_1 : well_formed ["Day"; "A sim"; "A error"] run_1.
Proof. split; [reflexivity|]. split; [now left|]. repeat constructor. Qed.
Lemma two_lines cols a0 b0 c0 a1 b1 c1 : ~ a0 == a1 -> one_per_day (Frame cols [[a0; b0; c0]; [a1; b1; c1]]) \/ position "Day" cols <> Some 0%nat.
Proof.
  intro N. destruct (position "Day" cols) as [[|n]|] eqn:P; [left|right; discriminate|right; discriminate].
  intros d c v w (r & d1 & R & D1 & E1 & V) (r' & d2 & R' & D2 & E2 & W). unfold cell in D1, D2, V, W. cbn [f_columns f_rows] in *. rewrite P in D1, D2.
  destruct R as [<-|[<-|[]]], R' as [<-|[<-|[]]]; cbn [nth_error] in D1, D2; injection D1 as <-; injection D2 as <-;
    try (exfalso; lra); rewrite V in W; injection W as <-; reflexivity.
Qed.
Lemma opd_0 : one_per_day run_0.
Proof. destruct (two_lines ["Day"; "A sim"; "A error"] 0 4 0 1 10 (1 # 2)) as [H|H]; [lra|exact H|]. exfalso; apply H; reflexivity. Qed.
Lemma opd_1 : one_per_day run_1.
Proof. destruct (two_lines ["Day"; "A sim"; "A error"] 0 4 0 1 20 (1 # 4)) as [H|H]; [lra|exact H|]. exfalso; apply H; reflexivity. Qed.
Lemma v_0 : value_on run_0 1 "A sim" 10.
Proof. exists [1; 10; (1 # 2)], 1. split; [right; now left|]. repeat split; reflexivity. Qed.
Lemma v_1 : value_on run_1 1 "A sim" 20.
Proof. exists [1; 20; (1 # 4)], 1. split; [right; now left|]. repeat split; reflexivity. Qed.
Lemma mean_15 : is_mean ([run_0] ++ [run_1]) 1 "A sim" 15.
Proof. exists [10; 20]. split; [repeat constructor; [exact v_0|exact v_1]|reflexivity]. Qed.

Lemma combined_case : Forall (well_formed ["Day"; "A sim"; "A error"]) ([run_0] ++ [run_1]) /\
  Forall one_per_day ([run_0] ++ [run_1]) /\ value_on run_0 1 "A sim" 10 /\ value_on run_1 1 "A sim" 20 /\
  is_mean ([run_0] ++ [run_1]) 1 "A sim" 15 /\ is_mean [run_0; run_0] 1 "A sim" 10.
Proof.
  split; [constructor; [exact wf_0|constructor; [exact wf_1|constructor]]|].
  split; [constructor; [exact opd_0|constructor; [exact opd_1|constructor]]|].
  split; [exact v_0|]. split; [exact v_1|]. split; [exact mean_15|].
  exists [10; 10]. split; [constructor; [exact v_0|constructor; [exact v_0|constructor]]|reflexivity].
Qed.
Lemma not_the_mean : exists fs f d c v m, Forall (well_formed ["Day"; "A sim"; "A error"]) fs /\ Forall one_per_day fs /\
  sum_output fs = Ok f /\ value_on f d c v /\ is_mean fs d c m /\ ~ v == m.
Proof.
  exists ([run_0] ++ [run_1]), run_1, 1, "A sim", 20, 15. destruct combined_case as (A & B & _ & C & D & _).
  split; [exact A|]. split; [exact B|]. split; [exact (sum_writes_last _ _ _ A)|]. split; [exact C|]. split; [exact D|]. discriminate.
Qed.
Lemma missing_days : exists f, sum_output (map so_far [(run_0, 2%nat); (run_1, 1%nat)]) = Ok f /\
  f_rows (so_far (run_0, 2%nat)) = f_rows run_0 /\ List.length (f_rows run_1) = 2%nat /\ List.length (f_rows f) = 1%nat.
Proof. eexists. split; [vm_compute; reflexivity|]. repeat split; reflexivity. Qed.
