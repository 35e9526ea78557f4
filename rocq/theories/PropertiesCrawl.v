(** * PropertiesCrawl: C41, the routes stored per location (fixed routes)

    Vocabulary: SpecRoutes.v (paths of open links) and SpecCrawl.v. *)

From Verif Require Import Base State Moving Crawling Scoring Diagnostics Flee DataTable
  Spawning InputGeography Api SpecAgents SpecHistory SpecRoutes SpecCrawl Defaults ExampleRun CrawlProofs CrawlWitness.
Local Open Scope Q_scope.
Local Open Scope string_scope.
Local Open Scope list_scope.

Local Opaque run.

(** C41. Without major routes, route generation for a location changes nothing but the
    routes stored there; it stores at most one route per destination name, and each is a
    path of open links within the awareness level to a location that is no marker, with
    the weight of its destination and length, and without loops if no road leads back to
    its own start. *)
Theorem C41_stored : forall S o e g i l e' g', nth_error (e_locations e) i = Some l -> l_marker l = false ->
  s_AwarenessLevel S <> 0%Z -> no_major_routes e ->
  generateLocationRoutes S o i e g = Ok (e', g') ->
  g' = g /\ exists routes, only_routes_of i routes e e' /\ NoDup (map fst routes) /\
    forall n w r j, In (n, (w, r, j)) routes ->
      exists stops d, path e i stops d /\ r = stop_names e stops /\ j = last_stop stops /\
        n = name_at e j /\ is_marker e j = false /\
        (Z.of_nat (List.length stops) <= reach_of S)%Z /\
        route_weight S o e j d w /\ 0 < w /\
        (no_self_links e -> NoDup (name_at e i :: stop_names e stops)).
Proof. exact stored_routes. Qed.
Print Assumptions C41_stored.

(** With or without major routes, no explored path is better than the stored route to its
    destination, which is itself such a path: whatever explored path of positive weight is
    given, a route to its destination with at least that weight is stored. *)
Theorem C41_best : forall S o e g i l e' g' stops d w, nth_error (e_locations e) i = Some l -> l_marker l = false ->
  s_AwarenessLevel S <> 0%Z -> pow_respects o ->
  generateLocationRoutes S o i e g = Ok (e', g') ->
  explored S e i stops d -> route_weight S o e (last_stop stops) d w -> 0 < w ->
  exists w' r j, In (name_at e (last_stop stops), (w', r, j)) (routes_at e' i) /\ w <= w' /\
    exists stops' d', path e i stops' d' /\ r = stop_names e stops' /\ j = last_stop stops' /\
      name_at e j = name_at e (last_stop stops) /\ route_weight S o e j d' w'.
Proof. exact best_routes. Qed.
Print Assumptions C41_best.

(** With major routes, each stored route is either as above, or it comes from a major
    route to the destination: then a path to it exists, which counts a quarter of its
    length, but the stored list of stops lacks the first stop. *)
Theorem C41_major : forall S o e g i l e' g', nth_error (e_locations e) i = Some l -> l_marker l = false ->
  s_AwarenessLevel S <> 0%Z ->
  generateLocationRoutes S o i e g = Ok (e', g') ->
  g' = g /\ only_routes_of i (routes_at e' i) e e' /\ NoDup (map fst (routes_at e' i)) /\
  forall n w r j, In (n, (w, r, j)) (routes_at e' i) ->
    exists stops d, path e i stops d /\ j = last_stop stops /\ n = name_at e j /\
      ((r = stop_names e stops /\ route_weight S o e j d w /\ (Z.of_nat (List.length stops) <= reach_of S)%Z) \/
       (r = without_first (stop_names e stops) /\ major_weight S o e j d w /\
        exists hub lh mr, nth_error (e_locations e) hub = Some lh /\ In mr (l_major_routes lh) /\ last mr "" = n)).
Proof. exact major_stored. Qed.
Print Assumptions C41_major.

(** So a stored major route need not be a path: here C is stored as the next stop of a
    location that has no road to C. *)
Theorem C41_major_refuted : exists o S e g, reachable o e g /\ s_FixedRoutes S = true /\
  (exists w j, In ("C", (w, ["C"], j)) (routes_at e 0)) /\
  ~ exists stops d, path e 0 stops d /\ stop_names e stops = ["C"].
Proof. exact major_first_hop. Qed.
Print Assumptions C41_major_refuted.

(** With fixed routes, an agent selects one of the routes stored at its location. *)
Theorem C41_selected : forall S o e a l time g r g', s_FixedRoutes S = true -> s_AwarenessLevel S <> 0%Z ->
  selectRoute S o e a l time g = Ok (Some r, g') ->
  exists n w stops j, In (n, (w, stops, j)) (l_routes l) /\ r = map RName stops.
Proof. exact select_fixed. Qed.
Print Assumptions C41_selected.

(** After a time step the stored weights need not be those of the current scores: they
    were computed while the scores of later locations were those of the step before.
    Here B has become a conflict zone, and the stored weight ignores that. *)
Theorem C41_current_refuted : exists o S e g w w', reachable o e g /\ s_FixedRoutes S = true /\ pow_respects o /\
  (exists r j, In ("B", (w, r, j)) (routes_at e 0)) /\
  explored S e 0 [1%nat] 100 /\ name_at e 1 = "B" /\ route_weight S o e 1 100 w' /\ w' < w.
Proof. exact stale_scores. Qed.
Print Assumptions C41_current_refuted.

(** A triangle in which the direct road from A to C is longer than the way over B *)
Example C41_example : pow_respects ex_oracle /\ no_major_routes (tri 2) /\
  (explored (fixed_S 2) (tri 2) 0 [1%nat; 2%nat] (100 + 100) /\ explored (fixed_S 2) (tri 2) 0 [2%nat] 1000) /\
  rmap (fun x => map fst (routes_at (fst x) 0)) (generateLocationRoutes (fixed_S 2) ex_oracle 0 (tri 2) ex_draws) = Ok ["B"; "C"] /\
  summary (tri_run 2) 0 = [("B", 1 # 110, ["B"]); ("C", 1 # 210, ["B"; "C"])].
Proof. exact (conj ex_pow_respects (conj tri_no_major (conj tri_explored (conj tri_generates (proj1 tri_summary))))). Qed.
