(** * Properties of attraction and of the chance to leave: C57, C58. Vocabulary: SpecWeights.v *)

From Verif Require Import Base State Moving Flee Api SpecAgents SpecHistory SpecRoutes SpecZones SpecReports SpecWeights
  Defaults ExampleRun WeightProofs WeightWitness.
Local Open Scope string_scope.
Local Open Scope Q_scope.
Local Open Scope list_scope.

(** C57. The score of a place for an agent exists and equals [r] exactly if [r] is the
    product of the safety, nearness, flood and crowd factors and no rule on ethnic groups
    applies. *)
Theorem C57_score : forall S o e a ep day r,
  (exists q, getEndPointScore S o e a ep day = Ok q /\ q == r) <-> attraction S o e a ep day r.
Proof. exact score_iff. Qed.
Print Assumptions C57_score.

(** The home of the agent does not matter, although a rule is called StayCloseToHome. *)
Theorem C57_home_refuted : forall S o e a ep day h,
  getEndPointScore S o e (up_a_home_location (fun _ => h) a) ep day = getEndPointScore S o e a ep day.
Proof. exact score_homeless. Qed.
Print Assumptions C57_home_refuted.

(** Nor does the number of inhabitants of a place that has any, although a rule is called
    UsePopForLocWeight. *)
Theorem C57_population_refuted : forall S o e a ep day n, (1 <= l_pop ep)%Z -> (1 <= n)%Z ->
  getEndPointScore S o e a (up_l_pop (fun _ => n) ep) day = getEndPointScore S o e a ep day.
Proof. exact score_uncrowded. Qed.
Print Assumptions C57_population_refuted.

(** If a rule on ethnic groups applies to the place there is never a score. *)
Theorem C57_ethnicity_refuted : forall S o e a ep day q, ~ unmatched S ep -> getEndPointScore S o e a ep day <> Ok q.
Proof. exact score_ethnic. Qed.
Print Assumptions C57_ethnicity_refuted.

(** C58. The chance to leave exists and equals [r] exactly if [r] is the product of the
    move chance of the place (or of its flood level), the population factor and the
    factor of the forecast; it is 1 in a town if the agent must move on. *)
Theorem C58_chance : forall S o e a l forced day r,
  (exists q, calculateMoveChance S o e a l forced day = Ok q /\ q == r) <-> leaves_with S o e a l forced day r.
Proof. exact chance_iff. Qed.
Print Assumptions C58_chance.

(** With the forecaster on nobody leaves unless a flood is forecast, not even a place that
    is flooded now or in conflict. *)
Theorem C58_dry_forecast_refuted : forall S o e a l day q d levels ts last,
  l_town l = false -> s_FloodRulesEnabled S = true -> window S day = Some (ts, last) ->
  attributes_of e l d -> dict_get "forecast_flood_levels" d = Some (VList levels) ->
  (forall x n, In x (forecast_days day ts last) -> item levels x = Some n -> (n <= 0)%Z) ->
  calculateMoveChance S o e a l false day = Ok q -> q == 0.
Proof. exact chance_dry. Qed.
Print Assumptions C58_dry_forecast_refuted.

(** A girl of 10 ([a]) and a boy of 16 ([b]), a flooded conflict zone with a flood forecast
    ([l]) and a flooded town without ([k]) *)
Example C57_C58_example : exists e g a b l k, reachable ex_oracle e g /\ e_agents e = firstn 3 (e_agents e) ++ [a; b] /\
  e_locations e = firstn 3 (e_locations e) ++ [l; k] /\
  attraction rules_S ex_oracle e a l 0 (976562500000000000000 # 300000000000307500132867) /\
  attraction rules_S ex_oracle e b l 0 (25 # 768) /\ attraction rules_S ex_oracle e a k 0 0 /\
  leaves_with rules_S ex_oracle e a l false 0 (5 # 24) /\ leaves_with rules_S ex_oracle e a k false 0 0.
Proof. exact score_case. Qed.
