(** * PropertiesClosures: C20-C24 and the remainder of C45

    Closing and reopening links, borders and locations.  The vocabulary ([opens],
    [closeds], [same_but_links], [distinct_names], ...) is in SpecClosures.v. *)

From Coq Require Import Permutation.
From Verif Require Import Base State Moving Flee Api SpecHistory SpecRoutes SpecClosures Lemmas Defaults ExampleRun
  SpecCalls ClosureProps ClosureWitness Naming.
Local Open Scope string_scope.
Local Opaque run.

(** C20. Closing or removing the link from location [i] to location [j], named by their own
    name objects, takes exactly the roads from [i] to [j] away; a closed road is kept in
    the closed store of [i]; nothing else differs; the result says whether one was found. *)
Theorem C20_close_link : forall o e g i li j lj close_only e' found,
  reachable o e g -> distinct_names e ->
  nth_error (e_locations e) i = Some li -> nth_error (e_locations e) j = Some lj ->
  remove_link (l_name li) (l_name lj) false close_only e = Ok (e', found) ->
  same_but_links e e' /\
  opens e' i = filter (not (to_place j)) (opens e i) /\
  closeds e' i = (closeds e i ++ (if close_only then filter (to_place j) (opens e i) else []))%list /\
  (forall p, p <> i -> opens e' p = opens e p /\ closeds e' p = closeds e p) /\
  found = existsb (to_place j) (opens e i).
Proof. exact close_exact. Qed.
Print Assumptions C20_close_link.

(** The call always succeeds when there is a location at all. *)
Theorem C20_succeeds : forall o e g s t twoway close_only,
  reachable o e g -> e_locations e <> [] ->
  exists e' found, remove_link s t twoway close_only e = Ok (e', found).
Proof. exact close_ok. Qed.
Print Assumptions C20_succeeds.

(** For arbitrary name objects the end location is found by object identity, the start
    location by value (last one of that name, the first location if there is none). *)
Theorem C20_any_names : forall o e g s t close_only e' found x,
  reachable o e g -> remove_link s t false close_only e = Ok (e', found) -> found_as e (sval s) x ->
  same_but_links e e' /\
  opens e' x = filter (not (to_object e t)) (opens e x) /\
  closeds e' x = (closeds e x ++ (if close_only then filter (to_object e t) (opens e x) else []))%list /\
  (forall p, p <> x -> opens e' p = opens e p /\ closeds e' p = closeds e p) /\
  found = existsb (to_object e t) (opens e x).
Proof. exact close_named. Qed.
Print Assumptions C20_any_names.

(** Whatever happens later, nobody enters the closed or removed link: an agent found on it
    was on it, on the same trip, when it was closed. *)
Theorem C20_never_entered : forall o e g s t close_only e1 found i ki k h e2 g2 ai a2,
  reachable o e g -> rng_ok g ->
  remove_link s t false close_only e = Ok (e1, found) ->
  found_as e (sval s) i -> open_link e i ki k -> to_object e t k = true ->
  run o h e1 g = Ok (e2, g2) -> nth_error (e_agents e2) ai = Some a2 -> a_location a2 = PLink ki ->
  off_road e1 ki /\
  exists a1, nth_error (e_agents e1) ai = Some a1 /\ a_location a1 = PLink ki /\
    a_places_travelled a1 = a_places_travelled a2.
Proof. exact entered_never. Qed.
Print Assumptions C20_never_entered.

(** With [twoway] (the default of the scheduled closures) only the opposite direction is
    affected. *)
Theorem C20_twoway : forall s t close_only e,
  remove_link s t true close_only e = remove_link t s false close_only e.
Proof. exact close_twoway. Qed.
Print Assumptions C20_twoway.

(** After one day of the example (A-B in one country, B-C across the border) *)
Example C20_example :
  reachable ex_oracle (then_eco []) (then_rng []) /\ distinct_names (then_eco []) /\
  option_map l_name (nth_error (e_locations (then_eco [])) 1) = Some nB /\
  option_map l_name (nth_error (e_locations (then_eco [])) 2) = Some nC /\
  map a_location (e_agents (then_eco [])) = [PLoc 1; PLoc 1; PLink 2] /\
  match remove_link nB nC false true (then_eco []) with
  | Ok (e', found) => found = true /\ ends e' = [[1]; [0]; [1]]%nat /\ counts e' = [(1, 0); (1, 1); (1, 0)]%nat
  | Err _ => False
  end.
Proof. split; [exact reach0|]. split; [exact distinct0|]. vm_compute; repeat split; reflexivity. Qed.

(** Refuted: "close_link(A, B, twoway=True) closes both directions" *)
Theorem C20_twoway_refuted : exists o e g e' found,
  reachable o e g /\ distinct_names e /\ close_link nA nB true e = Ok (e', found) /\
  existsb (to_place 1) (opens e 0) = true /\ existsb (to_place 0) (opens e 1) = true /\
  existsb (to_place 1) (opens e' 0) = true.
Proof.
  exists ex_oracle, (then_eco []), (then_rng []). do 2 eexists. split; [exact reach0|]. split; [exact distinct0|].
  split; [vm_compute; reflexivity|]. vm_compute; repeat split; reflexivity.
Qed.
Print Assumptions C20_twoway_refuted.

(** Refuted: "a link is closed if the locations are named by equal strings".  An equal
    string that is another object (as read from a closures file) closes nothing. *)
Theorem C20_equal_string_refuted : exists o e g e' name found,
  reachable o e g /\ distinct_names e /\ sval name = sval nB /\
  close_link nA name false e = Ok (e', found) /\
  existsb (to_place 1) (opens e 0) = true /\ found = false /\ opens e' 0 = opens e 0.
Proof.
  exists ex_oracle, (then_eco []), (then_rng []). eexists. exists (PS "B" 77), false. split; [exact reach0|]. split; [exact distinct0|].
  split; [reflexivity|]. split; [vm_compute; reflexivity|]. vm_compute; repeat split; reflexivity.
Qed.
Print Assumptions C20_equal_string_refuted.

(** Refuted: "closing a link from an unknown location changes nothing" *)
Theorem C20_unknown_start_refuted : exists o e g e' name found,
  reachable o e g /\ distinct_names e /\ (forall l, In l (e_locations e) -> lname l <> sval name) /\
  close_link name nB false e = Ok (e', found) /\ opens e' 0 <> opens e 0.
Proof.
  exists ex_oracle, (then_eco []), (then_rng []). eexists. exists (PS "Z" 77), true. split; [exact reach0|]. split; [exact distinct0|].
  split; [apply no_name_ok; vm_compute; reflexivity|].
  split; [vm_compute; reflexivity|]. vm_compute. discriminate.
Qed.
Print Assumptions C20_unknown_start_refuted.

(** C21. Closing and reopening restores the network: link, *)
Theorem C21_link : forall o e g s t twoway e1 e2 b1 b2, reachable o e g ->
  close_link s t twoway e = Ok (e1, b1) -> reopen_link s t twoway e1 = Ok (e2, b2) ->
  (forall i k, found_as e (sval (if twoway then t else s)) i -> In k (closeds e i) ->
     to_object e (if twoway then s else t) k = false) ->
  (same_but_links e e2 /\
   forall p, Permutation (opens e2 p) (opens e p) /\ Permutation (closeds e2 p) (closeds e p)) /\ b2 = b1.
Proof. exact link_back. Qed.
Print Assumptions C21_link.

(** border, *)
Theorem C21_border : forall o e g s d twoway f1 f2 e1 e2, reachable o e g -> distinct_names e ->
  close_border f1 s d twoway e = Ok e1 -> reopen_border f2 s d twoway e1 = Ok e2 ->
  (forall i k, In k (closeds e i) -> crosses e s d twoway i k = false) ->
  same_but_links e e2 /\
  forall p, Permutation (opens e2 p) (opens e p) /\ Permutation (closeds e2 p) (closeds e p).
Proof. exact border_restored. Qed.
Print Assumptions C21_border.

(** and location. *)
Theorem C21_location : forall o e g i l f1 f2 e1 e2 b1 b2, reachable o e g -> distinct_names e ->
  nth_error (e_locations e) i = Some l -> no_loop e i ->
  (forall p k, In k (closeds e p) -> p <> i /\ to_place i k = false) ->
  close_location f1 (lname l) true e = Ok (e1, b1) -> reopen_location f2 (lname l) true e1 = Ok (e2, b2) ->
  (List.length (opens e i) <= f1)%nat -> (List.length (opens e i) <= f2)%nat ->
  same_but_links e e2 /\
  forall p, Permutation (opens e2 p) (opens e p) /\ Permutation (closeds e2 p) (closeds e p).
Proof. exact place_restored. Qed.
Print Assumptions C21_location.

Example C21_example :
  reachable ex_oracle (then_eco []) (then_rng []) /\ distinct_names (then_eco []) /\
  no_loop (then_eco []) 1 /\ map l_closed_links (e_locations (then_eco [])) = [[]; []; []] /\
  (e1 <- close_border 9 "X" "Y" true (then_eco []) ;; e2 <- reopen_border 9 "X" "Y" true e1 ;; Ok (counts e1, ends e2)) =
    Ok ([(1, 0); (1, 1); (0, 1)], [[1]; [0; 2]; [1]])%nat /\
  ('(e1, _) <- close_location 9 "B" true (then_eco []) ;; '(e2, b) <- reopen_location 9 "B" true e1 ;; Ok (counts e1, ends e2, b)) =
    Ok ([(0, 1); (0, 2); (0, 1)]%nat, [[1]; [0; 2]; [1]]%nat, true).
Proof.
  split; [exact reach0|]. split; [exact distinct0|]. split; [apply no_loop_ok; vm_compute; reflexivity|].
  vm_compute; repeat split; reflexivity.
Qed.

(** With [twoway=False] reopening a location that has closed links never ends. *)
Theorem C21_location_oneway_refuted : forall o e g i l fuel,
  reachable o e g -> distinct_names e -> nth_error (e_locations e) i = Some l -> closeds e i <> [] ->
  reopen_location fuel (lname l) false e = Err OutOfFuel.
Proof. exact reopen_in_never. Qed.
Print Assumptions C21_location_oneway_refuted.

Example C21_oneway_example :
  let e := then_eco [ORemoveLink nB nC false true] in
  reachable ex_oracle e (then_rng [ORemoveLink nB nC false true]) /\ distinct_names e /\ closeds e 1 <> [].
Proof.
  split; [apply then_reachable; vm_compute; reflexivity|]. split; [apply distinct_ok; vm_compute; reflexivity|].
  vm_compute. discriminate.
Qed.

(** C22. Closing a border takes exactly the roads across it away, *)
Theorem C22_close_border : forall o e g s d twoway fuel e', reachable o e g -> distinct_names e ->
  close_border fuel s d twoway e = Ok e' ->
  same_but_links e e' /\ forall i,
    opens e' i = filter (not (crosses e s d twoway i)) (opens e i) /\
    Permutation (closeds e' i) (closeds e i ++ filter (crosses e s d twoway i) (opens e i)).
Proof. exact border_exact. Qed.
Print Assumptions C22_close_border.

(** so no open road leads from one country to the other, *)
Theorem C22_no_crossing : forall o e g s d twoway fuel e' i k, reachable o e g -> distinct_names e ->
  close_border fuel s d twoway e = Ok e' -> In k (opens e' i) ->
  ~ (country_at e' i = s /\ country_at e' (k_endpoint k) = d) /\
  (twoway = true -> ~ (country_at e' i = d /\ country_at e' (k_endpoint k) = s)).
Proof. exact border_closed. Qed.
Print Assumptions C22_no_crossing.

(** and it always comes to an end, also with repeated names; so does reopening. *)
Theorem C22_terminates : forall o e g s d twoway, reachable o e g ->
  (exists F e', forall fuel, (F <= fuel)%nat -> close_border fuel s d twoway e = Ok e') /\
  (exists F e', forall fuel, (F <= fuel)%nat -> reopen_border fuel s d twoway e = Ok e').
Proof. exact border_terminates. Qed.
Print Assumptions C22_terminates.

Example C22_example :
  rmap ends (close_border 9 "X" "Y" false (then_eco [])) = Ok [[1]; [0]; [1]]%nat /\
  rmap ends (close_border 9 "X" "Y" true (then_eco [])) = Ok [[1]; [0]; []]%nat.
Proof. vm_compute; repeat split; reflexivity. Qed.

(** C23. Closing a location that is not linked to itself ends, takes away the roads from it
    and the roads back from its neighbours, and nothing else; *)
Theorem C23_close_location : forall o e g i l,
  reachable o e g -> distinct_names e -> nth_error (e_locations e) i = Some l -> no_loop e i ->
  exists e', (forall fuel, (List.length (opens e i) <= fuel)%nat ->
                close_location fuel (lname l) true e = Ok (e', true)) /\
    same_but_links e e' /\ opens e' i = [] /\ Permutation (closeds e' i) (closeds e i ++ opens e i) /\
    forall p, p <> i ->
      let back k := (to_place i k && existsb (to_place p) (opens e i))%bool in
      opens e' p = filter (not back) (opens e p) /\
      Permutation (closeds e' p) (closeds e p ++ filter back (opens e p)).
Proof. exact place_exact. Qed.
Print Assumptions C23_close_location.

(** so it isolates the location if every road to it has a counterpart back. *)
Theorem C23_isolates : forall o e g i l fuel e' b,
  reachable o e g -> distinct_names e -> nth_error (e_locations e) i = Some l ->
  no_loop e i -> symmetric_at e i -> (List.length (opens e i) <= fuel)%nat ->
  close_location fuel (lname l) true e = Ok (e', b) ->
  b = true /\ same_but_links e e' /\ opens e' i = [] /\
  (forall p, p <> i -> opens e' p = filter (not (to_place i)) (opens e p)).
Proof. exact place_isolated. Qed.
Print Assumptions C23_isolates.

(** Only the incoming roads from neighbours are closed with [twoway=False]. *)
Theorem C23_incoming : forall o e g i l,
  reachable o e g -> distinct_names e -> nth_error (e_locations e) i = Some l ->
  exists e', (forall fuel, (List.length (opens e i) <= fuel)%nat ->
                close_location fuel (lname l) false e = Ok (e', true)) /\
    same_but_links e e' /\
    forall p, let back k := (to_place i k && existsb (to_place p) (opens e i))%bool in
      opens e' p = filter (not back) (opens e p) /\
      Permutation (closeds e' p) (closeds e p ++ filter back (opens e p)).
Proof. exact place_in_exact. Qed.
Print Assumptions C23_incoming.

(** A name no location has changes nothing and is reported. *)
Theorem C23_unknown : forall o e g name fuel twoway,
  reachable o e g -> (forall l, In l (e_locations e) -> lname l <> name) ->
  close_location fuel name twoway e = Ok (e, false) /\ reopen_location fuel name twoway e = Ok (e, false).
Proof. exact place_unknown. Qed.
Print Assumptions C23_unknown.

Example C23_example :
  reachable ex_oracle (then_eco []) (then_rng []) /\ distinct_names (then_eco []) /\
  no_loop (then_eco []) 1 /\ symmetric_at (then_eco []) 1 /\ List.length (opens (then_eco []) 1) = 2%nat /\
  rmap (fun r => (ends (fst r), snd r)) (close_location 2 "B" true (then_eco [])) = Ok ([[]; []; []], true) /\
  rmap (fun r => (ends (fst r), snd r)) (close_location 2 "C" true (then_eco [])) = Ok ([[1]; [0]; []]%nat, true).
Proof.
  split; [exact reach0|]. split; [exact distinct0|]. split; [apply no_loop_ok; vm_compute; reflexivity|].
  split; [apply symmetric_ok; vm_compute; reflexivity|]. vm_compute; repeat split; reflexivity.
Qed.

(** A location that is linked to itself is never closed: the call does not end. *)
Theorem C23_self_link_refuted : forall o e g i l fuel,
  reachable o e g -> distinct_names e -> nth_error (e_locations e) i = Some l -> ~ no_loop e i ->
  close_location fuel (lname l) true e = Err OutOfFuel.
Proof. exact close_loop_never. Qed.
Print Assumptions C23_self_link_refuted.

Example C23_self_link_example :
  let h := [OLinkUp "B" "B" 5 false None] in
  reachable ex_oracle (then_eco h) (then_rng h) /\ distinct_names (then_eco h) /\ ~ no_loop (then_eco h) 1.
Proof.
  split; [apply then_reachable; vm_compute; reflexivity|]. split; [apply distinct_ok; vm_compute; reflexivity|].
  apply loop_ok. vm_compute. reflexivity.
Qed.

(** Refuted without symmetry: with the road from A to B removed, closing A leaves the road
    from B to A open. *)
Theorem C23_asymmetric_refuted : exists o e g e' i l, reachable o e g /\ distinct_names e /\
  nth_error (e_locations e) i = Some l /\ no_loop e i /\
  close_location 9 (lname l) true e = Ok (e', true) /\ existsb (to_place i) (opens e' 1) = true.
Proof.
  exists ex_oracle, (then_eco [ORemoveLink nA nB false false]), (then_rng [ORemoveLink nA nB false false]).
  eexists. exists 0%nat. eexists. split; [apply then_reachable; vm_compute; reflexivity|].
  split; [apply distinct_ok; vm_compute; reflexivity|]. split; [vm_compute; reflexivity|].
  split; [apply no_loop_ok; vm_compute; reflexivity|]. split; [vm_compute; reflexivity|]. vm_compute. reflexivity.
Qed.
Print Assumptions C23_asymmetric_refuted.

(** C24. At a time that is neither the start nor the end of a scheduled closure nothing
    changes; *)
Theorem C24_quiet : forall fuel S t twoway e,
  (forall c, In c (e_closures e) -> t <> c_start c /\ t <> c_end c) ->
  enact_border_closures fuel S t twoway e = Ok e.
Proof. exact schedule_quiet. Qed.
Print Assumptions C24_quiet.

(** otherwise enacting the schedule has exactly the effect of the calls of the closures due
    now (see the table [closure_kinds]), in the order of the schedule; *)
Theorem C24_calls : forall o fuel S t twoway e g,
  run o (map (pair S) (flat_map (closure_calls fuel t twoway) (e_closures e))) e g =
  (e' <- enact_border_closures fuel S t twoway e ;; Ok (e', g)).
Proof. exact schedule_calls. Qed.
Print Assumptions C24_calls.

(** the only closure due now, between countries, closes the border at its start and reopens
    it at its end. *)
Theorem C24_country : forall fuel S t twoway e c,
  filter (fun c => ((t =? c_start c) || (t =? c_end c))%Z%bool) (e_closures e) = [c] ->
  c_kind c = "country" -> c_start c <> c_end c ->
  enact_border_closures fuel S t twoway e =
    if (t =? c_start c)%Z then close_border fuel (sval (c_source c)) (sval (c_dest c)) twoway e
    else reopen_border fuel (sval (c_source c)) (sval (c_dest c)) twoway e.
Proof. exact schedule_country. Qed.
Print Assumptions C24_country.

(** A call to change a forced redirection marks exactly the open roads from the location of
    the first name to locations of the second name. *)
Theorem C24_redirection : forall o e g n m v, reachable o e g -> e_locations e <> [] ->
  exists e' i l, set_forced_redirection n m v e = Ok e' /\ found_as e (sval n) i /\ nth_error (e_locations e) i = Some l /\
    e' = up_e_links (fun _ => e_links e') e /\
    forall ki, nth_error (e_links e') ki =
      option_map (fun k => if (existsb (Nat.eqb ki) (l_links l) && String.eqb (name_at e (k_endpoint k)) (sval m))%bool
                           then up_k_forced_redirection (fun _ => v) k else k) (nth_error (e_links e) ki).
Proof. exact redirected. Qed.
Print Assumptions C24_redirection.

(** Refuted: "agents are routed through forced redirections".  Their marks make no
    difference to the choice of a route. *)
Theorem C24_redirection_refuted : forall S o e a l time g,
  selectRoute S o (unforced e) a l time g = selectRoute S o e a l time g.
Proof. exact unforced_choice. Qed.
Print Assumptions C24_redirection_refuted.

(** A link closure from day 2 to day 4, a closure of a camp that starts on day 2 and one of
    an unknown kind *)
Example C24_calls_example :
  let cs := [Closure "link" nB nC 2 4; Closure "moon" nA nB 2 3; Closure "camp" nC nC 2 2] in
  flat_map (closure_calls 9 2 true) cs = [ORemoveLink nB nC true true; OCloseCamp nC false; OOpenCamp nC false] /\
  flat_map (closure_calls 9 4 true) cs = [OReopenLink nB nC true] /\
  is_ok (enact_border_closures 9 ex_S 2 true (up_e_closures (fun _ => cs) (then_eco []))) = true.
Proof. vm_compute; repeat split; reflexivity. Qed.

Example C24_example :
  let c := Closure "country" (PS "X" 50) (PS "Y" 51) 2 4 in
  let e t := rmap ends (enact_border_closures 9 ex_S t true (up_e_closures (fun _ => [c]) (then_eco []))) in
  e 1%Z = Ok [[1]; [0; 2]; [1]]%nat /\ e 2%Z = Ok [[1]; [0]; []]%nat /\ e 3%Z = Ok [[1]; [0; 2]; [1]]%nat.
Proof. vm_compute; repeat split; reflexivity. Qed.

(** C45, continued.  The traffic counter of a road survives closing and reopening. *)
Theorem C45_survives_closing : forall o e g s t twoway e1 e2 b1 b2, reachable o e g ->
  close_link s t twoway e = Ok (e1, b1) -> reopen_link s t twoway e1 = Ok (e2, b2) ->
  (forall i k, found_as e (sval (if twoway then t else s)) i -> In k (closeds e i) ->
     to_object e (if twoway then s else t) k = false) ->
  forall p, Permutation
    (map (fun k => (k_startpoint k, k_endpoint k, k_distance k, k_cumNumAgents k)) (opens e2 p))
    (map (fun k => (k_startpoint k, k_endpoint k, k_distance k, k_cumNumAgents k)) (opens e p)).
Proof. exact traffic_back. Qed.
Print Assumptions C45_survives_closing.

Example C45_survives_example :
  map k_cumNumAgents (opens (then_eco []) 1) = [0; 1]%Z /\
  ('(e1, _) <- close_link nB nC false (then_eco []) ;; '(e2, _) <- reopen_link nB nC false e1 ;;
   Ok (map k_cumNumAgents (opens e1 1), map k_cumNumAgents (opens e2 1))) = Ok ([0], [0; 1])%Z.
Proof. vm_compute; repeat split; reflexivity. Qed.
