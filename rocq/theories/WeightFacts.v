(** * WeightFacts: routes and decisions in terms of attraction and chance to leave *)

From Coq Require Import Lia Lqa Qfield.
From Verif Require Import Base State Moving Crawling Scoring Flee Api SpecAgents SpecHistory SpecChoice SpecRoutes SpecTravel SpecDecide
  SpecZones SpecReports SpecWeights Lemmas Defaults ExampleRun RouteProofs DecideProps TravelWitness WeightProofs.
Local Open Scope Q_scope.
Local Open Scope string_scope.
Local Opaque run.

(** ** Routes *)

Lemma weight_sound S o e a day i d w : code_weight S o e a day i d w -> stop_weight S o e a day i d w.
Proof.
  intros (l & sc & x & p & c & Hl & Hs & Hx & Hp & Hz & Hc & Hw). exists l, sc, x, p, c.
  split; [assumption|]. split; [now apply score_sound|]. split; [assumption|]. split; [now apply pow_ok|].
  split; [assumption|]. split; [now apply room_ok|]. eexists. split; [reflexivity|]. now apply pow_ok.
Qed.

Theorem routes_weighed : forall S o e a i l time candidates w r,
  nth_error (e_locations e) i = Some l ->
  allRoutes S o e a l time = Ok candidates -> In (w, r) candidates ->
  exists stops d, path e i stops d /\ r = name_at e i :: stop_names e stops /\
    is_marker e (last_stop stops) = false /\
    ((0 < s_AwarenessLevel S)%Z -> (real_stops e stops <= s_AwarenessLevel S)%Z) /\
    stop_weight S o e a time (last_stop stops) d w /\
    (no_self_links e -> NoDup (name_at e i :: stop_names e stops)).
Proof.
  intros S o e a i l time wr w r Hl H I. destruct (routes_sound _ _ _ _ _ _ _ _ _ _ Hl H I) as (st & d & P & R & M & A & W & N).
  apply weight_sound in W. exists st, d. auto 8.
Qed.

Theorem select_weighed : forall S o e a i l time g r g', nth_error (e_locations e) i = Some l ->
  (0 < s_AwarenessLevel S)%Z -> s_FixedRoutes S = false ->
  selectRoute S o e a l time g = Ok (Some r, g') ->
  exists stops d w, path e i stops d /\ r = map RName (stop_names e stops) /\
    is_marker e (last_stop stops) = false /\
    (real_stops e stops <= s_AwarenessLevel S)%Z /\
    stop_weight S o e a time (last_stop stops) d w /\
    (no_self_links e -> NoDup (name_at e i :: stop_names e stops)) /\
    (s_PruningThreshold S < (1001 # 1000) -> 0 <= next_draw g -> next_draw g < 1 ->
     forall candidates, allRoutes S o e a l time = Ok candidates ->
     Forall (fun p => 0 <= fst p) candidates ->
     (exists p, In p candidates /\ 0 < fst p) -> 0 < w).
Proof.
  intros S o e a i l time g r g' Hl A F H. destruct (select_sound _ _ _ _ _ _ _ _ _ _ Hl A F H) as (st & d & w & P & R & M & B & W & N & Z).
  apply weight_sound in W. exists st, d, w. auto 9.
Qed.

Theorem complete_weighed : forall S o e a i l time candidates stops d,
  nth_error (e_locations e) i = Some l ->
  allRoutes S o e a l time = Ok candidates ->
  path e i stops d -> is_marker e (last_stop stops) = false ->
  NoDup (name_at e i :: stop_names e stops) ->
  (real_stops e stops <= s_AwarenessLevel S)%Z ->
  exists w, In (w, name_at e i :: stop_names e stops) candidates /\
    stop_weight S o e a time (last_stop stops) d w.
Proof.
  intros S o e a i l time wr st d Hl H P M N A. destruct (routes_complete S o e a i l time wr st d Hl H P M N A) as (w & I & W).
  apply weight_sound in W. eauto.
Qed.

Theorem weight_simple : forall S o e a time i d w, stop_weight S o e a time i d w ->
  (forall x, o_pow o x (s_DistancePower S) == x) -> (forall x, o_pow o x (s_WeightPower S) == x) ->
  s_WeightSoftening S == 0 ->
  exists l score c, nth_error (e_locations e) i = Some l /\
    attraction S o e a l time score /\ room S l c /\
    w == score / (s_DistanceSoftening S + d) * c.
Proof.
  intros S o e a time i d w (l & sc & x & p & c & Hl & Hs & Hx & (_ & _ & ->) & Hz & Hc & y & Hy & (_ & _ & ->)) D W Z0.
  exists l, sc, c. repeat split; auto.
  rewrite W, Hy. rewrite D, Hx, Z0, Qplus_0_l. reflexivity.
Qed.

(** ** Decisions *)

Theorem stays_without_chance : forall S o t f ai e g e' g' a i l mc, asked o e g -> 0 <= next_draw g ->
  person_evolve S o t f ai e g = Ok (e', g') ->
  nth_error (e_agents e) ai = Some a -> a_location a = PLoc i -> nth_error (e_locations e) i = Some l ->
  leaves_with S o e a l f t mc -> mc <= 0 -> e' = e.
Proof.
  intros S o t f ai e g e' g' a i l mc A U H Ha L Hl C M. apply chance_complete in C as (q & C & Q0).
  eapply never_leaves; eauto. now rewrite Q0.
Qed.

Theorem stays_day_without_chance : forall o fuel S e g e' g' ai a i l mc,
  reachable o e g -> rng_ok g -> evolve fuel S o e g = Ok (e', g') ->
  nth_error (e_agents e) ai = Some a -> a_location a = PLoc i -> nth_error (e_locations e) i = Some l ->
  leaves_with S o e a l false (e_time e) mc -> mc <= 0 ->
  exists a', nth_error (e_agents e') ai = Some a' /\ (a_location a' = PLoc i \/ a_location a' = PGone i) /\
    a_places_travelled a' = a_places_travelled a.
Proof.
  intros o fuel S e g e' g' ai a i l mc R G H Ha L Hl C M. apply chance_complete in C as (q & C & Q0).
  eapply never_leaves_day; eauto. now rewrite Q0.
Qed.

Theorem tries_with_chance : forall S o t f ai e g e' g' a i l mc, asked o e g -> next_draw g < 1 ->
  person_evolve S o t f ai e g = Ok (e', g') ->
  nth_error (e_agents e) ai = Some a -> a_location a = PLoc i -> nth_error (e_locations e) i = Some l ->
  leaves_with S o e a l f t mc -> 1 <= mc ->
  a_route a = Some [] -> (0 < s_AwarenessLevel S)%Z -> s_FixedRoutes S = false ->
  exists a', nth_error (e_agents e') ai = Some a' /\
    ((exists ki k rest, open_link e i ki k /\ sets_out a a' ki rest) \/
     (l_links l = [] /\ stays_put a a') \/
     (exists stops d, path e i stops d /\ full_camp S e (name_at e (last_stop stops)) /\ stays_put a a')).
Proof.
  intros S o t f ai e g e' g' a i l mc A U H Ha L Hl C M R Aw F. apply chance_complete in C as (q & C & Q0).
  eapply always_tries; eauto. now rewrite Q0.
Qed.

Theorem chance_default : forall S o e a l f t mc, s_FloodRulesEnabled S = false ->
  s_MovechancePopScaleFactor S = 0 -> ~ s_MovechancePopBase S == 0 -> (forall x, o_pow o x 0 == 1) ->
  (leaves_with S o e a l f t mc <-> mc == if (l_town l && f)%bool then 1 else l_movechance l).
Proof.
  intros S o e a l f t mc F P B O. unfold leaves_with. destruct (l_town l && f)%bool; [reflexivity|]. rewrite F, P.
  split.
  - intros (p & _ & (_ & _ & ->) & ->). rewrite O. ring.
  - intro M. eexists. split; [assumption|]. split; [split; [|split; [|reflexivity]]|rewrite O, M; ring].
    + intros [_ X]. now apply (Qlt_irrefl 0).
    + intros [_ X]. discriminate X.
Qed.

Theorem unaware : exists o S e g a l,
  reachable o e g /\ rng_ok g /\ s_AwarenessLevel S = 0%Z /\
  nth_error (e_agents e) 0 = Some a /\ a_location a = PLoc 0 /\ a_route a = Some [] /\
  nth_error (e_locations e) 0 = Some l /\ l_links l = [0%nat] /\
  leaves_with S o e a l false 0 1 /\
  forall u, 0 <= u -> u < 1 -> exists e' g' a',
    person_evolve S o 0 false 0 e (rng_const u) = Ok (e', g') /\
    nth_error (e_agents e') 0 = Some a' /\ stays_put a a'.
Proof.
  destruct no_awareness as (o & S & e & g & a & l & H1 & H2 & H3 & H4 & H5 & H6 & H7 & H8 & H9 & H10).
  apply chance_sound in H9. exists o, S, e, g, a, l. auto 12.
Qed.

Theorem full_camp_stays : forall S o t f ai e g e' g' a i l mc plan dest, asked o e g ->
  person_evolve S o t f ai e g = Ok (e', g') ->
  nth_error (e_agents e) ai = Some a -> a_location a = PLoc i -> nth_error (e_locations e) i = Some l ->
  leaves_with S o e a l f t mc -> next_draw g < mc ->
  plan_used S o e a l t (snd (rng_u g)) (Some plan) -> plan <> [] ->
  List.last plan (RName "") = RName dest -> full_camp S e dest ->
  exists a', nth_error (e_agents e') ai = Some a' /\ stays_put a a'.
Proof.
  intros S o t f ai e g e' g' a i l mc plan dest A H Ha L Hl C M P Ne La Fc. apply chance_complete in C as (q & C & Q0).
  eapply full_camp_stay; eauto. now rewrite Q0.
Qed.

(** [leaves_with] is decided by running the code. *)
Lemma leaves_run S o e a l f t q r : calculateMoveChance S o e a l f t = Ok q -> q = r -> leaves_with S o e a l f t r.
Proof. intros H <-. now apply chance_sound. Qed.

Lemma chance_example :
  match nth_error (e_agents (ex_state 0)) 0, nth_error (e_locations (ex_state 0)) 0,
        nth_error (e_agents still_eco) 0, nth_error (e_locations still_eco) 0 with
  | Some a, Some l, Some b, Some k =>
      leaves_with ex_S ex_oracle (ex_state 0) a l false 0 1 /\ a_route a = Some [] /\
      is_ok (person_evolve ex_S ex_oracle 0 false 0 (ex_state 0) (ex_rng 0)) = true /\
      leaves_with ex_S ex_oracle still_eco b k false 0 0 /\ a_location b = PLoc 0 /\
      is_ok (evolve 10 ex_S ex_oracle still_eco (rng_const 0)) = true
  | _, _, _, _ => False
  end.
Proof.
  assert (X : match nth_error (e_agents (ex_state 0)) 0, nth_error (e_locations (ex_state 0)) 0,
        nth_error (e_agents still_eco) 0, nth_error (e_locations still_eco) 0 with
  | Some a, Some l, Some b, Some k =>
      calculateMoveChance ex_S ex_oracle (ex_state 0) a l false 0 = Ok 1 /\ a_route a = Some [] /\
      is_ok (person_evolve ex_S ex_oracle 0 false 0 (ex_state 0) (ex_rng 0)) = true /\
      calculateMoveChance ex_S ex_oracle still_eco b k false 0 = Ok 0 /\ a_location b = PLoc 0 /\
      is_ok (evolve 10 ex_S ex_oracle still_eco (rng_const 0)) = true
  | _, _, _, _ => False
  end) by (vm_compute; repeat split).
  destruct (nth_error (e_agents (ex_state 0)) 0) as [a|]; [|contradiction].
  destruct (nth_error (e_locations (ex_state 0)) 0) as [l|]; [|contradiction].
  destruct (nth_error (e_agents still_eco) 0) as [b|]; [|contradiction].
  destruct (nth_error (e_locations still_eco) 0) as [k|]; [|contradiction].
  destruct X as (X1 & X2 & X3 & X4 & X5 & X6).
  split; [exact (chance_sound _ _ _ _ _ _ _ _ X1)|]. split; [exact X2|]. split; [exact X3|].
  split; [exact (chance_sound _ _ _ _ _ _ _ _ X4)|]. split; [exact X5|exact X6].
Qed.

Lemma full_chance : reachable ex_oracle full_eco full_rng /\ full_camp ex_S full_eco "C" /\
  match nth_error (e_agents full_eco) 0, nth_error (e_locations full_eco) 0 with
  | Some a, Some l => a_location a = PLoc 0 /\
      leaves_with ex_S ex_oracle full_eco a l false 0 1 /\ next_draw full_rng < 1 /\
      rmap fst (selectRoute ex_S ex_oracle full_eco a l 0 (snd (rng_u full_rng))) = Ok (Some [RName "C"]) /\
      is_ok (person_evolve ex_S ex_oracle 0 false 0 full_eco full_rng) = true
  | _, _ => False
  end.
Proof.
  destruct full_example as (R & F & X). split; [exact R|]. split; [exact F|]. revert X.
  destruct (nth_error (e_agents full_eco) 0) as [a|]; [|intro X; exact X].
  destruct (nth_error (e_locations full_eco) 0) as [l|]; [|intro X; exact X].
  intros (X1 & X2 & X3 & X4 & X5). split; [exact X1|]. split; [exact (chance_sound _ _ _ _ _ _ _ _ X2)|]. split; [exact X3|].
  split; [exact X4|exact X5].
Qed.
