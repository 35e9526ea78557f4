(** * Properties of the route search: C15, C16 *)

From Verif Require Import Base State Moving SpecChoice SpecRoutes SpecZones SpecReports SpecWeights Defaults ExampleRun RouteProofs WeightFacts.
Local Open Scope Q_scope.

(** C15. Every candidate route from location [i] is a path of open links that ends in a
    location which is no marker, with at most as many non-marker stops as the awareness
    level; its weight is that of its last stop and its length; without self-links it
    visits no location twice and does not return to the start. *)
Theorem C15_candidates : forall S o e a i l time candidates w r,
  nth_error (e_locations e) i = Some l ->
  allRoutes S o e a l time = Ok candidates -> In (w, r) candidates ->
  exists stops d, path e i stops d /\ r = name_at e i :: stop_names e stops /\
    is_marker e (last_stop stops) = false /\
    ((0 < s_AwarenessLevel S)%Z -> (real_stops e stops <= s_AwarenessLevel S)%Z) /\
    stop_weight S o e a time (last_stop stops) d w /\
    (no_self_links e -> NoDup (name_at e i :: stop_names e stops)).
Proof. exact routes_weighed. Qed.
Print Assumptions C15_candidates.

(** The route an agent selects is one of these; without pruning its weight is positive if
    any candidate has a positive weight. *)
Theorem C15_selected : forall S o e a i l time g r g', nth_error (e_locations e) i = Some l ->
  (0 < s_AwarenessLevel S)%Z -> s_FixedRoutes S = false ->
  selectRoute S o e a l time g = Ok (Some r, g') ->
  exists stops d w, path e i stops d /\ r = map RName (stop_names e stops) /\
    is_marker e (last_stop stops) = false /\
    (real_stops e stops <= s_AwarenessLevel S)%Z /\
    stop_weight S o e a time (last_stop stops) d w /\
    (no_self_links e -> NoDup (name_at e i :: stop_names e stops)) /\
    (s_PruningThreshold S < (1001 # 1000) -> 0 <= next_draw g -> next_draw g < 1 ->
     forall candidates, allRoutes S o e a l time = Ok candidates ->
     Forall (fun p => 0 <= fst p) candidates ->
     (exists p, In p candidates /\ 0 < fst p) -> 0 < w).
Proof. exact select_weighed. Qed.
Print Assumptions C15_selected.

(** With the default powers and softening the weight is the attraction of the end point divided
    by the softened length, times the capacity multiplier. *)
Theorem C15_weight : forall S o e a time i d w, stop_weight S o e a time i d w ->
  (forall x, o_pow o x (s_DistancePower S) == x) -> (forall x, o_pow o x (s_WeightPower S) == x) ->
  s_WeightSoftening S == 0 ->
  exists l score c, nth_error (e_locations e) i = Some l /\
    attraction S o e a l time score /\ room S l c /\
    w == score / (s_DistanceSoftening S + d) * c.
Proof. exact weight_simple. Qed.
Print Assumptions C15_weight.

Example C15_example :
  match nth_error (e_locations (ex_state 0)) 0, nth_error (e_agents (ex_state 0)) 0 with
  | Some l, Some a => a_location a = PLoc 0 /\
      rmap (map snd) (allRoutes ex_aware ex_oracle (ex_state 0) a l 0) =
        Ok [["A"; "B"]; ["A"; "B"; "C"]]%string
  | _, _ => False
  end.
Proof. vm_compute. split; reflexivity. Qed.

(** C16. The search terminates for every graph, settings and agent (the model's recursion
    budget never runs out), *)
Theorem C16_terminates : forall S o e a l time, allRoutes S o e a l time <> Err OutOfFuel.
Proof. exact routes_terminate. Qed.
Print Assumptions C16_terminates.

(** the result does not depend on the budget once it is large enough, *)
Theorem C16_budget_irrelevant : forall S o e a time fuel fuel' ki prior origin step,
  (fuel <= fuel')%nat ->
  calculateLinkWeight fuel S o e a ki prior origin step time <> Err OutOfFuel ->
  calculateLinkWeight fuel' S o e a ki prior origin step time =
  calculateLinkWeight fuel S o e a ki prior origin step time.
Proof. exact clw_more. Qed.
Print Assumptions C16_budget_irrelevant.

(** and every loop-free path of open links to a non-marker location within the awareness
    level is among the candidates, with its own weight. *)
Theorem C16_complete : forall S o e a i l time candidates stops d,
  nth_error (e_locations e) i = Some l ->
  allRoutes S o e a l time = Ok candidates ->
  path e i stops d -> is_marker e (last_stop stops) = false ->
  NoDup (name_at e i :: stop_names e stops) ->
  (real_stops e stops <= s_AwarenessLevel S)%Z ->
  exists w, In (w, name_at e i :: stop_names e stops) candidates /\
    stop_weight S o e a time (last_stop stops) d w.
Proof. exact complete_weighed. Qed.
Print Assumptions C16_complete.

Example C16_example : path (ex_state 0) 0 [1; 2]%nat 600 /\
  is_marker (ex_state 0) (last_stop [1; 2]%nat) = false /\
  stop_names (ex_state 0) [1; 2]%nat = ["B"; "C"]%string /\
  (real_stops (ex_state 0) [1; 2]%nat <= s_AwarenessLevel ex_aware)%Z.
Proof. exact routes_example. Qed.
