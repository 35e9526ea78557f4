(** * ExampleRun: a concrete history used to show that hypotheses are met

    Three places: a conflict zone A (population 100), a town B and a camp C in another
    country; A-B is 100 km, B-C 500 km.  Camps are sinks with deactivation probability
    one half.  Agents leave A at once. *)

From Verif Require Import Base State Moving Crawling Scoring Diagnostics Flee DataTable
  Spawning InputGeography Api SpecAgents SpecHistory Defaults.
Local Open Scope Q_scope.
Local Open Scope string_scope.

Definition ex_S : settings :=
  up_s_log_camp (fun _ => 1%Z) (up_s_camps_are_sinks (fun _ => true) default_settings).

Definition nA := PS "A" 1. Definition nB := PS "B" 2. Definition nC := PS "C" 3.

Definition ex_build : list op :=
  [ OAddLocation nA "r" 0 0 (Some "conflict_zone") 1 (-1) 100 false "X" (Some []);
    OAddLocation nB "r" 1 0 (Some "town") 1 (-1) 50 false "X" (Some []);
    OAddLocation nC "r" 2 0 (Some "camp") 1 1000 0 true "Y"
      (Some [("deactivation_probability", VFloat (1 # 2))]);
    OLinkUp "A" "B" 100 false None; OLinkUp "B" "C" 500 false None;
    OAddAgent 0 []; OAddAgent 0 []; OInsertAgent 1 [] ].

Definition ex_history (n : nat) : history :=
  map (pair ex_S) (ex_build ++ repeat (OEvolve 10) n).

(** Draws alternate between 1/4 and 3/4. *)
Definition ex_draws : rng :=
  let u n := if Nat.even n then 1 # 4 else 3 # 4 in Rng u u (fun _ => 0%nat) 0 0 0.

Definition ex_run (n : nat) : res (eco * rng) := run ex_oracle (ex_history n) empty_eco ex_draws.

(** The final state of a run (the empty ecosystem if the run failed) *)
Definition end_eco (r : res (eco * rng)) : eco := match r with Ok (e, _) => e | Err _ => empty_eco end.
Definition end_rng (r : res (eco * rng)) : rng := match r with Ok (_, g) => g | Err _ => rng_const 0 end.
Lemma end_ok r : is_ok r = true -> r = Ok (end_eco r, end_rng r).
Proof. destruct r as [[e g]|x]; [reflexivity|discriminate]. Qed.

(** The state after [n] time steps *)
Definition ex_state (n : nat) : eco := end_eco (ex_run n).
Definition ex_rng (n : nat) : rng := end_rng (ex_run n).

Local Opaque run.

Lemma ex_run_ok n : is_ok (ex_run n) = true -> ex_run n = Ok (ex_state n, ex_rng n).
Proof. exact (end_ok (ex_run n)). Qed.

Lemma ex_reachable n : is_ok (ex_run n) = true -> reachable ex_oracle (ex_state n) (ex_rng n).
Proof. exact (fun H => ex_intro _ (ex_history n) (ex_intro _ ex_draws (ex_run_ok n H))). Qed.

(** The links A-B and B-C of the example *)
Definition ex_AB : link := Link 0 1 false 100 0 0 0 false 1 [].
Definition ex_BC : link := Link 1 2 false 500 0 0 0 false 1 [].
