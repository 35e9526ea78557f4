(** * LinkLogWitness: a run with a link log *)

From Verif Require Import Base State Flee Api SpecAgents SpecHistory SpecTraffic Defaults ExampleRun.
Local Open Scope string_scope.
Local Open Scope Q_scope.
Local Open Scope list_scope.

(** Link log level 2 *)
Definition lnk_S : settings := up_s_log_link (fun _ => 2%Z) ex_S.

Definition lnk_build : list op :=
  [ OAddLocation nA "r" 0 0 (Some "conflict_zone") 1 (-1) 100 false "X" (Some []);
    OAddLocation nB "q" 1 0 (Some "town") 1 (-1) 50 false "X" (Some []);
    OAddLocation nC "q" 2 0 (Some "camp") 1 1000 0 true "Y" (Some []);
    OLinkUp "A" "B" 100 false None; OLinkUp "B" "C" 500 false None;
    OAddAgent 0 [("age", VInt 30); ("gender", VStr "f")]; OAddAgent 0 [("age", VFloat 30); ("gender", VStr "m")];
    OInsertAgent 1 [("gender", VStr "f")] ].

Definition lnk_run (n : nat) : res (eco * rng) :=
  run ex_oracle (map (pair lnk_S) (lnk_build ++ repeat (OEvolve 10) n)) empty_eco ex_draws.
Definition lnk_eco (n : nat) : eco := end_eco (lnk_run n).
Definition lnk_rng (n : nat) : rng := end_rng (lnk_run n).
Local Opaque run.
Lemma lnk_reachable n : is_ok (lnk_run n) = true -> reachable ex_oracle (lnk_eco n) (lnk_rng n).
Proof. exact (fun H => ex_intro _ _ (ex_intro _ _ (end_ok (lnk_run n) H))). Qed.
