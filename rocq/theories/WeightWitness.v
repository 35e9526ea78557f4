(** * WeightWitness: concrete cases for the properties of attraction and chance to leave *)

From Verif Require Import Base State Moving Crawling Scoring Diagnostics Flee DataTable Spawning InputGeography Api
  SpecAgents SpecHistory SpecRoutes SpecZones SpecReports SpecWeights Lemmas Defaults ExampleRun ClosureWitness ReportWitness WeightProofs.
Local Open Scope string_scope.
Local Open Scope Q_scope.
Local Opaque run.
Local Open Scope list_scope.

(** Flood rules with a forecast of three days, children avoid hazards, boys take risks *)
Definition rules_S : settings :=
  up_s_FloodRulesEnabled (fun _ => true) (up_s_FloodMovechances (fun _ => Some [0; 1 # 2; 1])
  (up_s_FloodAwarenessWeights (fun _ => Some [0; 1 # 2; 1])
  (up_s_ChildrenAvoidHazards (fun _ => true) (up_s_BoysTakeRisk (fun _ => true)
  (up_s_UsePopForLocWeight (fun _ => true) (up_s_PopPowerForLocWeight (fun _ => 1) flood_S)))))).
Definition rules_ops : list op :=
  [ OAddLocation (PS "F" 4) "r" 1 1 (Some "conflict_zone") 1 (-1) 10 false "X"
      (Some [("flood_level", VInt 2); ("forecast_flood_levels", VList [0; 1; 2; 0]%Z)]);
    OAddLocation (PS "G" 5) "r" 1 1 (Some "town") 1 (-1) 10 false "X"
      (Some [("flood_level", VInt 2); ("forecast_flood_levels", VList [2; 0; 0; 0]%Z)]);
    OAddAgent 0 [("floodawareness", VStr "2"); ("age", VInt 10); ("gender", VStr "female")];
    OAddAgent 0 [("floodawareness", VStr "2"); ("age", VInt 16); ("gender", VStr "male")] ].
Definition rules_run (g : rng) : res (eco * rng) := run ex_oracle (map (pair ex_S) (ex_build ++ rules_ops)%list) empty_eco g.
Definition rules_eco (g : rng) := end_eco (rules_run g).
Lemma rules_ok : is_ok (rules_run ex_draws) = true.
Proof. vm_compute. reflexivity. Qed.
Lemma rules_reachable : exists g', reachable ex_oracle (rules_eco ex_draws) g'.
Proof. exists (end_rng (rules_run ex_draws)). exact (ex_intro _ _ (ex_intro _ _ (end_ok (rules_run ex_draws) rules_ok))). Qed.

(** What the code answers for the agent and the location of these numbers *)
Definition score_at (e : eco) (ai i : nat) : res Q :=
  a <- agent_of e ai ;; l <- loc_of e i ;; q <- getEndPointScore rules_S ex_oracle e a l 0 ;; Ok (Qred q).
Definition chance_at (e : eco) (ai i : nat) : res Q :=
  a <- agent_of e ai ;; l <- loc_of e i ;; q <- calculateMoveChance rules_S ex_oracle e a l false 0 ;; Ok (Qred q).
Lemma score_at_ok e ai i r : score_at e ai i = Ok r -> exists a l, nth_error (e_agents e) ai = Some a /\
  nth_error (e_locations e) i = Some l /\ attraction rules_S ex_oracle e a l 0 r.
Proof.
  unfold score_at, agent_of, loc_of. destruct (nth_error (e_agents e) ai) as [a|]; [|discriminate].
  destruct (nth_error (e_locations e) i) as [l|]; [|discriminate]. cbn [of_option bind]. intro H. rstep H. injection H as <-.
  exists a, l. split; [reflexivity|]. split; [reflexivity|]. apply score_iff. exists v. split; [assumption|]. symmetry. apply Qred_correct.
Qed.
Lemma chance_at_ok e ai i r : chance_at e ai i = Ok r -> exists a l, nth_error (e_agents e) ai = Some a /\
  nth_error (e_locations e) i = Some l /\ leaves_with rules_S ex_oracle e a l false 0 r.
Proof.
  unfold chance_at, agent_of, loc_of. destruct (nth_error (e_agents e) ai) as [a|]; [|discriminate].
  destruct (nth_error (e_locations e) i) as [l|]; [|discriminate]. cbn [of_option bind]. intro H. rstep H. injection H as <-.
  exists a, l. split; [reflexivity|]. split; [reflexivity|]. apply chance_iff. exists v. split; [assumption|]. symmetry. apply Qred_correct.
Qed.
Lemma rules_example : let e := rules_eco ex_draws in
  score_at e 3 3 = Ok (976562500000000000000 # 300000000000307500132867) /\ score_at e 4 3 = Ok (25 # 768) /\
  score_at e 3 4 = Ok 0 /\ chance_at e 3 3 = Ok (5 # 24) /\ chance_at e 3 4 = Ok 0.
Proof. vm_compute. repeat split. Qed.
Lemma score_case : exists e g a b l k, reachable ex_oracle e g /\ e_agents e = firstn 3 (e_agents e) ++ [a; b] /\
  e_locations e = firstn 3 (e_locations e) ++ [l; k] /\
  attraction rules_S ex_oracle e a l 0 (976562500000000000000 # 300000000000307500132867) /\
  attraction rules_S ex_oracle e b l 0 (25 # 768) /\ attraction rules_S ex_oracle e a k 0 0 /\
  leaves_with rules_S ex_oracle e a l false 0 (5 # 24) /\ leaves_with rules_S ex_oracle e a k false 0 0.
Proof.
  destruct rules_example as (X1 & X2 & X3 & X4 & X5). destruct rules_reachable as [g R].
  assert (N : (List.length (e_agents (rules_eco ex_draws)) = 5 /\ List.length (e_locations (rules_eco ex_draws)) = 5)%nat) by (vm_compute; split; reflexivity).
  revert X1 X2 X3 X4 X5 R N. generalize (rules_eco ex_draws). intros e X1 X2 X3 X4 X5 R [N M].
  apply score_at_ok in X1 as (a & l & Ha & Hl & X1), X2 as (b & l' & Hb & Hl' & X2), X3 as (a' & k & Ha' & Hk & X3).
  apply chance_at_ok in X4 as (a1 & l1 & Ha1 & Hl1 & X4), X5 as (a2 & k2 & Ha2 & Hk2 & X5).
  assert (l' = l) as -> by congruence. assert (a' = a) as -> by congruence. assert (a1 = a) as -> by congruence.
  assert (l1 = l) as -> by congruence. assert (a2 = a) as -> by congruence. assert (k2 = k) as -> by congruence.
  exists e, g, a, b, l, k. split; [exact R|].
  split; [|split; [|auto]].
  - destruct (e_agents e) as [|? [|? [|? [|? [|? [|? ?]]]]]]; try discriminate. cbn in *. congruence.
  - destruct (e_locations e) as [|? [|? [|? [|? [|? [|? ?]]]]]]; try discriminate. cbn in *. congruence.
Qed.
