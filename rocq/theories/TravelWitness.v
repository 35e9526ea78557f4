(** * TravelWitness: concrete cases for [PropertiesTravel] *)

From Coq Require Import Lia Lqa.
From Verif Require Import Base State Moving Crawling Scoring Diagnostics Flee DataTable
  Spawning InputGeography Api SpecAgents SpecHistory SpecRoutes SpecTravel SpecChoice SpecDecide Defaults
  ExampleRun ExampleTravel Lemmas Inv InvMoves InvStruct RouteProofs ScoreFrames Streams Travel TravelRun Terminate Terminate2 TravelProps DecideProps.
Local Open Scope Q_scope.
Local Open Scope string_scope.
Local Opaque run.

Theorem departs_on_link S o t f ai e g e' g' a a' : asked o e g ->
  person_evolve S o t f ai e g = Ok (e', g') -> nth_error (e_agents e) ai = Some a ->
  nth_error (e_agents e') ai = Some a' -> a_location a' <> a_location a ->
  exists i ki k, a_location a = PLoc i /\ a_location a' = PLink ki /\ open_link e i ki k /\ k_startpoint k = i.
Proof.
  intros A H Ha Ha' Ne. pose proof (asked_inv _ _ _ A) as I.
  assert (X : exists ki, a_location a' = PLink ki).
  { destruct (person_evolve_decided _ _ _ _ _ _ _ _ _ _ I H Ha) as (_ & _ & a2 & Ha2 & D).
    assert (a2 = a') as -> by congruence.
    destruct D as [->|(i & rest & L0 & T & [->|(kj & k & O & ->)])]; [congruence|cbn in *; congruence|cbn; eauto]. }
  destruct X as [ki X]. destruct (decision_open_link _ _ _ _ _ _ _ _ _ _ _ _ I H Ha Ha' Ne X) as (i & k & P).
  exists i, ki, k. tauto.
Qed.

Theorem step_terminates o S e g m0 v n fuel :
  reachable o e g -> rng_ok g ->
  (forall ki k, nth_error (e_links e) ki = Some k ->
     m0 <= k_distance k /\ forall trip s, speed_today S e trip k s -> s <= v) ->
  0 < m0 -> v <= inject_Z (Z.of_nat n) * m0 -> (n < fuel)%nat ->
  evolve fuel S o e g <> Err OutOfFuel.
Proof.
  intros R G B M V F. apply (evolve_terminates S o e g m0 v n fuel); auto.
  - eapply reachable_inv; eauto.
  - eapply reachable_settled; eauto.
Qed.

Theorem step_budget S o e g fuel fuel' : (fuel <= fuel')%nat ->
  evolve fuel S o e g <> Err OutOfFuel -> evolve fuel' S o e g = evolve fuel S o e g.
Proof. exact (evolve_more S o e g fuel fuel'). Qed.

Lemma ok_end r : is_ok r = true -> r = Ok (end_eco r, end_rng r). Proof. exact (end_ok r). Qed.

Lemma road_fine d more : is_ok (road_run d more) = true -> rng_ok (road_rng d more).
Proof.
  intro H. apply (streams_ok (rng_const (1 # 4))); [|exact road_rng_ok].
  apply (run_streams _ _ _ _ _ _ (end_ok (road_run d more) H)).
Qed.

Lemma near_example : reachable ex_oracle (ex_state 0) (ex_rng 0) /\ rng_ok (ex_rng 0) /\
  is_ok (evolve 10 ex_S ex_oracle (ex_state 0) (ex_rng 0)) = true /\
  map a_location (e_agents (ex_state 0)) = [PLoc 0; PLoc 0; PLoc 1] /\
  map a_location (e_agents (ex_state 1)) = [PLoc 1; PLoc 1; PLink 2] /\
  map l_links (e_locations (ex_state 0)) = [[0]; [1; 2]; [3]]%nat.
Proof.
  split; [apply ex_reachable; vm_compute; reflexivity|]. split.
  { split; intro n; vm_compute; destruct n; [split; [discriminate|reflexivity]| |split; [discriminate|reflexivity]|];
      match goal with |- context [if ?b then _ else _] => destruct b end; split; discriminate || reflexivity. }
  vm_compute. repeat split.
Qed.

Lemma road_example : let e := road_eco 1000 [] in let g := road_rng 1000 [] in
  reachable ex_oracle e g /\ rng_ok g /\
  map a_location (e_agents e) = [PLoc 0] /\
  during (steady 1 0 200) ex_oracle (map (pair road_S) (repeat a_day 6)) e g /\
  map (fun n => map a_location (e_agents (road_eco 1000 (repeat a_day n)))) [1; 5; 6]%nat =
    [[PLink 0]; [PLink 0]; [PLink 1]] /\
  map (fun n => map a_places_travelled (e_agents (road_eco 1000 (repeat a_day n)))) [1; 5; 6]%nat =
    [[1]; [1]; [2]]%Z.
Proof.
  cbv zeta. split; [apply road_reachable; vm_compute; reflexivity|].
  split; [split; intro n; vm_compute; split; discriminate || reflexivity|].
  split; [vm_compute; reflexivity|]. split.
  { apply (plain_run_during _ 200).
    - intros. now apply plain_steady.
    - vm_compute. reflexivity. }
  split; vm_compute; reflexivity.
Qed.

Lemma short_road_example : let e := road_eco 1 [] in
  reachable ex_oracle e (road_rng 1 []) /\
  (forall ki k, nth_error (e_links e) ki = Some k ->
     1 <= k_distance k /\ forall trip s, speed_today road_S e trip k s -> s <= 200) /\
  evolve 100 road_S ex_oracle e (road_rng 1 []) = Err OutOfFuel /\
  is_ok (evolve 201 road_S ex_oracle e (road_rng 1 [])) = true.
Proof.
  cbv zeta. split; [apply road_reachable; vm_compute; reflexivity|]. split.
  - intros ki k K. assert (P : all_plain road_S (road_eco 1 []) = true) by (vm_compute; reflexivity). split.
    + assert (X : forallb (fun k => Qle_bool 1 (k_distance k)) (e_links (road_eco 1 [])) = true) by (vm_compute; reflexivity).
      rewrite forallb_forall in X. apply Qle_bool_iff. apply X. eapply nth_error_In; eauto.
    + intros n s Sp. apply (plain_up_to _ _ P _ _ K) in Sp. exact (proj2 Sp).
  - split; vm_compute; reflexivity.
Qed.

Lemma daily_limit_broken : exists o S e g fuel e' g' a a',
  reachable o e g /\ rng_ok g /\ speeds_up_to (s_MaxMoveSpeed S) S e /\
  evolve fuel S o e g = Ok (e', g') /\
  nth_error (e_agents e) 0 = Some a /\ nth_error (e_agents e') 0 = Some a' /\
  s_MaxMoveSpeed S < a_distance_travelled a' - a_distance_travelled a.
Proof.
  set (r := evolve 10 road_S ex_oracle (road_eco 199 []) (road_rng 199 [])).
  assert (X : exists a a', nth_error (e_agents (road_eco 199 [])) 0 = Some a /\ nth_error (e_agents (end_eco r)) 0 = Some a' /\
    200 < a_distance_travelled a' - a_distance_travelled a).
  { vm_compute. do 2 eexists. split; [reflexivity|]. split; [reflexivity|]. reflexivity. }
  destruct X as (a & a' & Ha & Ha' & X).
  exists ex_oracle, road_S, (road_eco 199 []), (road_rng 199 []), 10%nat, (end_eco r), (end_rng r), a, a'.
  split; [apply road_reachable; vm_compute; reflexivity|].
  split; [apply road_fine; vm_compute; reflexivity|].
  split; [apply plain_up_to; vm_compute; reflexivity|]. split; [|exact (conj Ha (conj Ha' X))].
  apply ok_end. vm_compute. reflexivity.
Qed.

Lemma recent_limit_broken : exists o h g0 e g, rng_ok g0 /\ run o h empty_eco g0 = Ok (e, g) /\
  during usual_speeds o h empty_eco g0 /\
  exists a, In a (e_agents e) /\ 1 < a_recent_travel_distance a.
Proof.
  exists ex_oracle, (road_history 199 [a_day; a_day]), (rng_const (1 # 4)), (road_eco 199 [a_day; a_day]), (road_rng 199 [a_day; a_day]).
  split; [exact road_rng_ok|]. split.
  { apply (ok_end (road_run 199 [a_day; a_day])). vm_compute. reflexivity. }
  split.
  { apply (plain_run_during _ 200); [|vm_compute; reflexivity].
    intros S c e P V Pos _. split; [assumption|now apply plain_up_to]. }
  assert (X : match e_agents (road_eco 199 [a_day; a_day]) with a :: _ => 1 < a_recent_travel_distance a | [] => False end)
    by (vm_compute; reflexivity).
  destruct (e_agents (road_eco 199 [a_day; a_day])) as [|a l]; [contradiction|]. exists a. split; [now left|assumption].
Qed.

Lemma closing_example :
  let closing := [a_day; ORemoveLink nA nB false true] in
  let e := road_eco 500 closing in
  reachable ex_oracle e (road_rng 500 closing) /\
  map a_location (e_agents e) = [PLink 0] /\ map k_closed (e_links e) = [true; false; true] /\
  map a_location (e_agents (road_eco 500 (closing ++ [OReopenLink nA nB false; a_day]))) = [PLink 0] /\
  map a_location (e_agents (road_eco 500 (closing ++ [OReopenLink nA nB false; a_day; a_day]))) = [PLoc 0] /\
  map a_location (e_agents (road_eco 500 [a_day; a_day; a_day])) = [PLink 1].
Proof. cbv zeta. split; [apply road_reachable|]; vm_compute; repeat split. Qed.

(** ** Decisions *)

Definition still_run : res (eco * rng) := run ex_oracle (map (pair ex_S)
  [ OAddLocation nA "r" 0 0 None 0 (-1) 100 false "X" (Some []);
    OAddLocation nB "r" 1 0 (Some "town") 1 (-1) 50 false "X" (Some []);
    OLinkUp "A" "B" 100 false None; OAddAgent 0 [] ]) empty_eco (rng_const 0).
Definition still_eco : eco := end_eco still_run.
Definition still_rng : rng := end_rng still_run.

Definition full_run : res (eco * rng) := run ex_oracle (map (pair ex_S)
  [ OAddLocation nA "r" 0 0 (Some "conflict_zone") 1 (-1) 100 false "X" (Some []);
    OAddLocation nC "r" 1 0 (Some "camp") 1 1 0 true "Y" (Some [("deactivation_probability", VFloat 0)]);
    OLinkUp "A" "C" 100 false None; OAddAgent 0 []; OInsertAgent 1 [] ]) empty_eco (rng_const (1 # 4)).
Definition full_eco : eco := end_eco full_run.
Definition full_rng : rng := end_rng full_run.

Lemma full_flat : full_camp ex_S full_eco "C".
Proof.
  assert (X : match nth_error (e_locations full_eco) 1 with
              | Some l => sval (l_name l) = "C" /\ l_camp l = true /\ getCapMultiplier ex_S l = Ok 0
              | None => False end) by (vm_compute; repeat split).
  assert (Y : name_at full_eco 0 = "A") by (vm_compute; reflexivity).
  destruct (nth_error (e_locations full_eco) 1) as [l|] eqn:E; [|contradiction]. destruct X as (X1 & X2 & X3).
  apply room_ok in X3. exists 1%nat, l, 0. split; [assumption|]. split; [assumption|]. split; [|now repeat split].
  intros j Hj. assert (j = 0%nat) as -> by lia. rewrite Y. discriminate.
Qed.

Definition blind_S : settings := up_s_AwarenessLevel (fun _ => 0%Z) ex_S.

Definition blind_agent : agent := Agent (PLoc 0) 0 0 1 0 0 false 0 [] (Some []) 0 [].

Lemma blind_stays u l : agent_of (ex_state 0) 0 = Ok blind_agent -> loc_of (ex_state 0) 0 = Ok l ->
  calculateMoveChance blind_S ex_oracle (ex_state 0) blind_agent l false 0 = Ok 1 -> l_links l = [0%nat] ->
  (forall z, take_next_step blind_S (ex_state 0) (Some [RIdx z]) [0%nat] = Ok (None, [])) ->
  u < 1 -> exists g', person_evolve blind_S ex_oracle 0 false 0 (ex_state 0) (rng_const u) =
     Ok (up_agent 0 (up_a_route (fun _ => Some [])) (ex_state 0), g').
Proof.
  generalize (ex_state 0). intros e Ha Hl Mc Lk T U. unfold person_evolve. rewrite Ha. cbn [bind a_travelling a_location a_route blind_agent].
  rewrite Hl. cbn [bind]. fold blind_agent. rewrite Mc. cbn [bind]. unfold rng_const, rng_u. cbn [g_u g_i].
  assert (Qltb u 1 = true) as -> by now apply Qltb_true.
  unfold selectRoute. change (s_AwarenessLevel blind_S =? 0)%Z with true. cbv iota. rewrite Lk.
  unfold np_randint. cbn -[take_next_step up_agent Z.modulo]. rewrite T. cbn [bind]. eauto.
Qed.

Lemma no_awareness : exists o S e g a l,
  reachable o e g /\ rng_ok g /\ s_AwarenessLevel S = 0%Z /\
  nth_error (e_agents e) 0 = Some a /\ a_location a = PLoc 0 /\ a_route a = Some [] /\
  nth_error (e_locations e) 0 = Some l /\ l_links l = [0%nat] /\
  calculateMoveChance S o e a l false 0 = Ok 1 /\
  forall u, 0 <= u -> u < 1 -> exists e' g' a',
    person_evolve S o 0 false 0 e (rng_const u) = Ok (e', g') /\
    nth_error (e_agents e') 0 = Some a' /\ stays_put a a'.
Proof.
  assert (Ha : agent_of (ex_state 0) 0 = Ok blind_agent) by (vm_compute; reflexivity).
  assert (M : rmap (fun l => (calculateMoveChance blind_S ex_oracle (ex_state 0) blind_agent l false 0, l_links l))
     (loc_of (ex_state 0) 0) = Ok (Ok 1, [0%nat])) by (vm_compute; reflexivity).
  assert (T : forall z, take_next_step blind_S (ex_state 0) (Some [RIdx z]) [0%nat] = Ok (None, []))
    by (intro z; vm_compute; reflexivity).
  destruct (loc_of (ex_state 0) 0) as [l|] eqn:Hl; [|discriminate]. cbn [rmap] in M. injection M as Mc Lk.
  pose proof near_example as (R & G & _).
  exists ex_oracle, blind_S, (ex_state 0), (ex_rng 0), blind_agent, l.
  split; [exact R|]. split; [exact G|]. split; [reflexivity|].
  pose proof (of_option_ok _ _ _ Ha) as Ha0. pose proof (of_option_ok _ _ _ Hl) as Hl0.
  split; [exact Ha0|]. split; [reflexivity|]. split; [reflexivity|]. split; [exact Hl0|].
  split; [exact Lk|]. split; [exact Mc|]. intros u _ U.
  destruct (blind_stays u l Ha Hl Mc Lk T U) as [g' E].
  exists (up_agent 0 (up_a_route (fun _ => Some [])) (ex_state 0)), g', (up_a_route (fun _ => Some []) blind_agent).
  split; [exact E|]. revert Ha0. generalize (ex_state 0). intros e Ha0. cbn [up_agent up_e_agents e_agents].
  rewrite nth_upd_same, Ha0. split; [reflexivity|]. repeat split.
Qed.

Lemma still_reachable : reachable ex_oracle still_eco still_rng /\ rng_ok still_rng.
Proof.
  split; [|split; intro n; vm_compute; split; discriminate || reflexivity].
  assert (X : is_ok still_run = true) by (vm_compute; reflexivity).
  exact (ex_intro _ _ (ex_intro _ (rng_const 0) (end_ok still_run X))).
Qed.

Lemma full_reachable : reachable ex_oracle full_eco full_rng.
Proof.
  assert (X : is_ok full_run = true) by (vm_compute; reflexivity).
  exact (ex_intro _ _ (ex_intro _ (rng_const (1 # 4)) (end_ok full_run X))).
Qed.

Lemma full_example : reachable ex_oracle full_eco full_rng /\ full_camp ex_S full_eco "C" /\
  match nth_error (e_agents full_eco) 0, nth_error (e_locations full_eco) 0 with
  | Some a, Some l => a_location a = PLoc 0 /\
      calculateMoveChance ex_S ex_oracle full_eco a l false 0 = Ok 1 /\ next_draw full_rng < 1 /\
      rmap fst (selectRoute ex_S ex_oracle full_eco a l 0 (snd (rng_u full_rng))) = Ok (Some [RName "C"]) /\
      is_ok (person_evolve ex_S ex_oracle 0 false 0 full_eco full_rng) = true
  | _, _ => False
  end.
Proof. split; [exact full_reachable|]. split; [exact full_flat|]. vm_compute. repeat split. Qed.
