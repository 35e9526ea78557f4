(** * PropertiesLinkLog: C73

    Links count who enters them, and the link log says so.  The vocabulary is in
    SpecTraffic.v ([journey], [traffic], [has_value], [counted], [proper_attributes],
    [link_block]). *)

From Verif Require Import Base State Flee Api SpecAgents SpecHistory SpecRoutes SpecTraffic Defaults ExampleRun
  LinkLogProofs LinkLogWitness.
Local Open Scope string_scope.
Local Open Scope Q_scope.
Local Open Scope list_scope.
Local Opaque run.

(** C73. In a step every agent makes a journey over open links; a link's counter grows by
    the number of times agents entered it and, with link log level 2, its table entry for
    each value of each attribute by the number of times agents with that value did.
    (When a link is closed the program keeps a copy of it that shares the table: the
    table of the abandoned original, which no agent enters and no log shows, then follows
    the copy's; the model gives it a table of its own.) *)
Theorem C73_traffic : forall o fuel S e g e' g', reachable o e g -> evolve fuel S o e g = Ok (e', g') ->
  exists entered,
    (forall n a, nth_error (e_agents e) n = Some a -> exists a' p', nth_error (e_agents e') n = Some a' /\
       journey e (a_location a) (entered n) p' /\
       (a_location a' = p' \/ exists i, p' = PLoc i /\ a_location a' = PGone i)) /\
    forall ki k, nth_error (e_links e) ki = Some k -> exists k', nth_error (e_links e') ki = Some k' /\
      k_cumNumAgents k' = (k_cumNumAgents k + traffic e (fun _ => true) entered ki)%Z /\
      (proper_attributes e -> forall s v, counted k' s v =
        (counted k s v + if (1 <? s_log_link S)%Z then traffic e (has_value s v) entered ki else 0)%Z).
Proof. exact traffic_spec. Qed.
Print Assumptions C73_traffic.

(** No other call changes the counters of a link. *)
Theorem C73_other_calls : forall o S c e g e' g', (forall fuel, c <> OEvolve fuel) -> step o S c e g = Ok (e', g') ->
  forall ki k, nth_error (e_links e) ki = Some k -> exists k', nth_error (e_links e') ki = Some k' /\
    k_cumNumAgents k' = k_cumNumAgents k /\ k_cumByAttribute k' = k_cumByAttribute k.
Proof. exact other_calls. Qed.
Print Assumptions C73_other_calls.

(** With a link log, a step appends the lines of every open link, in the order of the
    locations and of the links of each, with the counters at the end of the step; at time
    0 the file starts anew.  Without one it writes nothing. *)
Theorem C73_log : forall fuel S o e g e' g', evolve fuel S o e g = Ok (e', g') ->
  if (s_log_link S <=? 0)%Z then e_links_out e' = e_links_out e
  else exists bs, e_links_out e' = (if (e_time e =? 0)%Z then [] else e_links_out e) ++ List.concat bs /\
    Forall2 (link_block S e' (e_time e)) (flat_map l_links (e_locations e')) bs.
Proof. exact evolve_link_log. Qed.
Print Assumptions C73_log.

(** On day 0 the agents in A go to B, the one in B leaves for C; on day 1 another leaves
    for C.  An age of 30 and of 30.0 are the same value. *)
Example C73_example :
  reachable ex_oracle (lnk_eco 1) (lnk_rng 1) /\
  forallb (fun a => match a_attributes a with [(s, _); (s', _)] => negb (String.eqb s s') | l => Nat.leb (List.length l) 1 end)
    (e_agents (lnk_eco 1)) = true /\
  rmap (fun r => map a_location (e_agents (fst r))) (evolve 10 lnk_S ex_oracle (lnk_eco 1) (lnk_rng 1)) =
    Ok [PLoc 1; PLink 2; PLoc 2] /\
  map a_location (e_agents (lnk_eco 1)) = [PLoc 1; PLoc 1; PLink 2] /\
  map k_cumNumAgents (e_links (lnk_eco 1)) = [2; 0; 1; 0]%Z /\
  map k_cumNumAgents (e_links (lnk_eco 2)) = [2; 0; 2; 0]%Z /\
  map (fun k => counted k "age" (VFloat 30)) (e_links (lnk_eco 2)) = [2; 0; 1; 0]%Z /\
  map (fun k => counted k "gender" (VStr "f")) (e_links (lnk_eco 2)) = [1; 0; 1; 0]%Z /\
  map (fun r => (lr_start r, lr_end r, lr_count r, lr_attribute r)) (filter (fun r => (lr_time r =? 1)%Z) (e_links_out (lnk_eco 2))) =
    [("A", "B", 2%Z, None); ("A", "B", 2%Z, Some ("age", VInt 30)); ("A", "B", 1%Z, Some ("gender", VStr "f"));
     ("A", "B", 1%Z, Some ("gender", VStr "m")); ("B", "A", 0%Z, None); ("B", "C", 2%Z, None);
     ("B", "C", 1%Z, Some ("gender", VStr "f")); ("B", "C", 1%Z, Some ("gender", VStr "m"));
     ("B", "C", 1%Z, Some ("age", VFloat 30)); ("C", "B", 0%Z, None)] /\
  rmap (fun r => map (fun r => (lr_start r, lr_end r, lr_count r)) (e_links_out (fst r)))
    (evolve 10 (up_s_granularity (fun _ => "region") (up_s_log_link (fun _ => 1%Z) lnk_S)) ex_oracle (lnk_eco 0) (lnk_rng 0)) =
    Ok [("r", "q", 2%Z); ("q", "r", 0%Z); ("q", "q", 1%Z); ("q", "q", 0%Z)].
Proof. split; [apply lnk_reachable; vm_compute; reflexivity|]. vm_compute; repeat split; reflexivity. Qed.
