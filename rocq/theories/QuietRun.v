(** * QuietRun: a day, and a whole simulation, without its logs *)

From Coq Require Import Lia Lqa.
From Verif Require Import Base State Moving Crawling Scoring Diagnostics Flee DataTable
  Spawning InputGeography Api SpecQuiet Lemmas QuietReads QuietCalls.
Local Open Scope list_scope.

(** Whenever [x] returns, so does [y], with the image of the result *)
Definition sim {A B} (h : A -> B) (x : res A) (y : res B) : Prop := forall a, x = Ok a -> y = Ok (h a).

Lemma sim_eq {A B} (h : A -> B) x y : y = rmap h x -> sim h x y.
Proof. intros -> a ->. reflexivity. Qed.
Lemma sim_bind {A B C D} (h : A -> B) (h' : C -> D) x y k k' :
  sim h x y -> (forall a, x = Ok a -> sim h' (k a) (k' (h a))) -> sim h' (bind x k) (bind y k').
Proof. intros X K c H. apply bind_ok in H as (a & E & H). rewrite (X a E). exact (K a E c H). Qed.
Lemma sim_same {A C D} (h' : C -> D) (x : res A) k k' :
  (forall a, x = Ok a -> sim h' (k a) (k' a)) -> sim h' (bind x k) (bind x k').
Proof. intro K. apply (sim_bind (fun a => a)); [|exact K]. intros a E. exact E. Qed.
Lemma sim_ok {A B} (h : A -> B) a b : h a = b -> sim h (Ok a) (Ok b).
Proof. intros <- c E. injection E as <-. reflexivity. Qed.
Lemma sim_err {A B} (h : A -> B) x y : sim h (Err x) y.
Proof. intros c E. discriminate E. Qed.
Lemma sim_foldM {X A B} (h : A -> B) (f : A -> X -> res A) (f' : B -> X -> res B) l :
  (forall a x, sim h (f a x) (f' (h a) x)) -> forall a, sim h (foldM f l a) (foldM f' l (h a)).
Proof.
  intro H. induction l as [|x l IH]; intro a; [now apply sim_ok|]. cbn [foldM]. apply (sim_bind h); [apply H|]. intros. apply IH.
Qed.

Ltac reads := first [rewrite h_loc|rewrite h_link|rewrite h_agent|rewrite h_endpoint]; rewrite bind_rmap; apply sim_same.

(** ** Moving *)

Lemma s_link_inc S par at_ k : sim hk (link_inc S par at_ k) (link_inc (off S) par at_ (hk k)).
Proof.
  unfold link_inc. cbv zeta. change (1 <? s_log_link (off S))%Z with false. cbn iota. destruct (1 <? s_log_link S)%Z.
  - intros k' H. apply bind_ok in H as (t & _ & H). injection H as <-. destruct par; reflexivity.
  - apply sim_ok. destruct par; reflexivity.
Qed.

Lemma s_inc S at_ p e : sim hide (inc_at S at_ p e) (inc_at (off S) at_ p (hide e)).
Proof.
  destruct p as [i|k|i]; cbn [inc_at]; [| |apply sim_err].
  - reads. intros l _. apply sim_ok. apply h_up_loc. intro. change (e_par (hide e)) with (e_par e). destruct (e_par e); reflexivity.
  - reads. intros l _. change (e_par (hide e)) with (e_par e). apply (sim_bind hk); [apply s_link_inc|]. intros l' _.
    apply sim_ok. now apply h_up_link.
Qed.

Lemma s_travel S ai p tr e : sim hide (handle_travel S ai p tr e) (handle_travel (off S) ai p tr (hide e)).
Proof.
  unfold handle_travel. reads. intros a _. change (a_location (ha a)) with (a_location a). change (a_attributes (ha a)) with (a_attributes a).
  apply (sim_bind hide); [apply sim_eq, h_dec|]. intros e1 _. cbv zeta.
  rewrite <- (h_up_agent ai (up_a_location (fun _ => p)) (up_a_location (fun _ => p)) e1) by reflexivity.
  apply (sim_bind hide); [apply s_inc|]. intros e3 _. apply sim_ok. now apply h_up_agent.
Qed.

Lemma s_person S o t f ai e g : sim hp (person_evolve S o t f ai e g) (person_evolve (off S) o t f ai (hide e) g).
Proof.
  unfold person_evolve. reads. intros a _. change (a_travelling (ha a)) with (a_travelling a). destruct (a_travelling a); [now apply sim_ok|].
  change (a_location (ha a)) with (a_location a). destruct (a_location a) as [i|k|i]; try apply sim_err.
  reads. intros l _. rewrite h_chance. apply sim_same. intros mc _. destruct (rng_u g) as [u g1]. destruct (Qltb u mc); [|now apply sim_ok].
  change (a_route (ha a)) with (a_route a). rewrite h_select. apply sim_same. intros [r g2] _. rewrite h_next.
  change (l_links (hl l)) with (l_links l). apply sim_same. intros [d rest] _. cbv zeta.
  rewrite <- (h_up_agent ai (up_a_route (fun _ => Some rest)) (up_a_route (fun _ => Some rest)) e) by reflexivity.
  destruct d as [ki|]; [|now apply sim_ok]. apply (sim_bind hide); [apply s_travel|]. intros e2 _. now apply sim_ok.
Qed.

Lemma h_speed S e a k g : travel_speed (off S) (hide e) (ha a) (hk k) g = travel_speed S e a k g.
Proof. reflexivity. Qed.

Lemma s_finish fuel S o t ai : forall e g, sim hp (finish_travel fuel S o t ai e g) (finish_travel fuel (off S) o t ai (hide e) g).
Proof.
  induction fuel as [|fuel IH]; intros e g; cbn [finish_travel]; reads; intros a _; change (a_travelling (ha a)) with (a_travelling a);
    (destruct (a_travelling a); cbn [negb]; [|now apply sim_ok]); [apply sim_err|].
  change (a_location (ha a)) with (a_location a). destruct (a_location a) as [i|ki|i]; try apply sim_err.
  reads. intros k _. rewrite h_speed. apply sim_same. intros [sp g1] _. cbv zeta.
  change (a_distance_travelled_on_link (ha a)) with (a_distance_travelled_on_link a).
  change (a_distance_moved_this_timestep (ha a)) with (a_distance_moved_this_timestep a).
  change (k_distance (hk k)) with (k_distance k). change (k_closed (hk k)) with (k_closed k).
  change (k_startpoint (hk k)) with (k_startpoint k). change (k_endpoint (hk k)) with (k_endpoint k).
  set (onl := (a_distance_travelled_on_link a + sp)%Q). set (mv := (a_distance_moved_this_timestep a + sp)%Q). clearbody onl mv.
  match goal with |- context [up_agent ai ?f (hide e)] => rewrite <- (h_up_agent ai f f e) by reflexivity end.
  set (e1 := up_agent ai _ e). clearbody e1.
  change (0 <? s_log_agent (off S))%Z with false. change (1 <? s_log_agent (off S))%Z with false.
  change (0 <? s_log_camp (off S))%Z with false. rewrite andb_false_r. cbn [andb]. cbn iota.
  destruct (Qltb (k_distance k) onl); [|now apply sim_ok].
  match goal with |- context [up_agent ai ?f (hide e1)] =>
    rewrite <- (h_up_agent ai (fun a => up_a_places_travelled (fun z => z + 1)%Z (up_a_distance_moved_this_timestep (fun _ => (mv + (k_distance k - onl))%Q)
       (if (0 <? s_log_agent S)%Z then up_a_distance_travelled (fun q => (q + k_distance k)%Q) a else a))) f e1)
      by (intro x; destruct (0 <? s_log_agent S)%Z; reflexivity) end.
  set (e2 := up_agent ai _ e1). clearbody e2. destruct (k_closed k).
  - apply (sim_bind hide); [apply s_travel|]. intros e3 _. now apply sim_ok.
  - assert (HE : forall b : bool, hide (if b then up_agent ai (up_a_locations_visited (fun l => l ++ [ki])) e2 else e2) = hide e2).
    { intros []; [|reflexivity]. rewrite (h_up_agent ai (up_a_locations_visited (fun l => l ++ [ki])) (fun x => x)) by reflexivity.
      unfold up_agent. destruct (hide e2) as [? ? ? ? ag]. unfold up_e_agents. ecosimpl. f_equal.
      clear. revert ai. induction ag as [|x ag IH]; intros [|ai]; cbn; try reflexivity. f_equal. apply IH. }
    set (e3 := if (_ && (1 <? s_log_agent S)%Z)%bool then _ else e2). assert (E3 : hide e3 = hide e2) by apply HE. clearbody e3. rewrite <- E3.
    apply (sim_bind hide); [apply s_travel|]. intros e4 _. reads. intros ep _.
    match goal with |- context [if ((0 <? s_log_camp S)%Z && l_camp ep)%bool then ?x else e4] => set (e5 := if ((0 <? s_log_camp S)%Z && l_camp ep)%bool then x else e4) end.
    assert (E5 : hide e5 = hide e4).
    { unfold e5. destruct (_ && _)%bool; [|reflexivity].
      rewrite (h_up_loc (k_endpoint k) (up_l_incoming_journey_lengths (fun l => l ++ [a_timesteps_since_departure a])) (fun x => x)) by reflexivity.
      unfold up_loc. destruct (hide e4) as [ls]. unfold up_e_locations. ecosimpl. f_equal. generalize (k_endpoint k) as n.
      clear. induction ls as [|x ls IH]; intros [|n]; cbn; try reflexivity. f_equal. apply IH. }
    clearbody e5. rewrite <- E5. destruct (Qltb _ sp); [|now apply sim_ok].
    change (s_AvoidShortStints (off S)) with (s_AvoidShortStints S). change (s_MaxMoveSpeed (off S)) with (s_MaxMoveSpeed S).
    change (a_recent_travel_distance (ha a)) with (a_recent_travel_distance a). apply sim_same. intros ra _.
    apply (sim_bind hp); [apply s_person|]. intros [e6 g2] _. apply IH.
Qed.

(** ** A day *)

Lemma len_agents e : List.length (e_agents (hide e)) = List.length (e_agents e).
Proof. cbn. apply map_length. Qed.
Lemma len_locations e : List.length (e_locations (hide e)) = List.length (e_locations e).
Proof. cbn. apply map_length. Qed.

Lemma s_scores S o e g : sim hp (update_scores S o e g) (update_scores (off S) o (hide e) g).
Proof.
  unfold update_scores. rewrite len_locations. change (hide e, g) with (hp (e, g)). apply sim_foldM. intros [e1 g1] i.
  unfold hp at 2. cbn [fst snd]. apply sim_eq. change (e_time (hide e1)) with (e_time e1). rewrite <- h_update. f_equal.
  symmetry. now apply h_up_loc.
Qed.

Lemma hide_visited ai e : hide (up_agent ai (up_a_locations_visited (fun _ => [])) e) = hide e.
Proof.
  rewrite (h_up_agent ai (up_a_locations_visited (fun _ => [])) (fun x => x)) by reflexivity.
  unfold up_agent. destruct (hide e) as [? ? ? ? ag]. unfold up_e_agents. ecosimpl. f_equal.
  clear. revert ai. induction ag as [|x ag IH]; intros [|ai]; cbn; try reflexivity. f_equal. apply IH.
Qed.

Lemma s_agents S o e g : sim hp (evolve_agents S o e g) (evolve_agents (off S) o (hide e) g).
Proof.
  unfold evolve_agents. rewrite len_agents. change (hide e, g) with (hp (e, g)). apply sim_foldM. intros [e1 g1] ai.
  unfold hp at 2. cbn [fst snd]. cbv zeta. change (1 <? s_log_agent (off S))%Z with false. cbn iota.
  set (e2 := if (1 <? s_log_agent S)%Z then _ else e1). assert (E : hide e2 = hide e1) by (unfold e2; destruct (_ <? _)%Z; [apply hide_visited|reflexivity]).
  clearbody e2. rewrite <- E. reads. intros a _. change (a_location (ha a)) with (a_location a).
  destruct (a_location a); try apply s_person. now apply sim_ok.
Qed.

Lemma s_finishes fuel S o e g : sim hp (finish_agents fuel S o e g) (finish_agents fuel (off S) o (hide e) g).
Proof.
  unfold finish_agents. rewrite len_agents. change (hide e, g) with (hp (e, g)). apply sim_foldM. intros [e1 g1] ai.
  unfold hp at 2. cbn [fst snd]. reads. intros a _. change (a_location (ha a)) with (a_location a). change (e_time (hide e1)) with (e_time e1).
  assert (K : sim hp ('(e2, g2) <- finish_travel fuel S o (e_time e1) ai e1 g1 ;; Ok (up_agent ai (up_a_timesteps_since_departure (fun z => z + 1)%Z) e2, g2))
    ('(e2, g2) <- finish_travel fuel (off S) o (e_time e1) ai (hide e1) g1 ;; Ok (up_agent ai (up_a_timesteps_since_departure (fun z => z + 1)%Z) e2, g2))).
  { apply (sim_bind hp); [apply s_finish|]. intros [e2 g2] _. apply sim_ok. unfold hp. cbn [fst snd]. f_equal. now apply h_up_agent. }
  destruct (a_location a); [exact K|exact K|now apply sim_ok].
Qed.

Lemma h_recent S e : update_recent (off S) (hide e) = rmap hide (update_recent S e).
Proof.
  unfold update_recent. change (e_agents (hide e)) with (map ha (e_agents e)). change (s_MaxMoveSpeed (off S)) with (s_MaxMoveSpeed S).
  match goal with |- context [mapM ?f (e_agents e)] => rewrite (mapM_map ha ha f) end.
  - rewrite bind_rmap. into. reflexivity.
  - intro a. change (a_distance_moved_this_timestep (ha a)) with (a_distance_moved_this_timestep a). into. reflexivity.
Qed.

Lemma h_arrivals S e : hide (aggregate_arrivals S e) = hide e.
Proof.
  unfold aggregate_arrivals. destruct (0 <? s_log_camp S)%Z; [|reflexivity]. cbv zeta. unfold without_logs. ecosimpl. f_equal.
  rewrite map_map. apply map_ext. intro l. destruct (l_camp l); reflexivity.
Qed.

Lemma h_deactivate S e g : deactivate (off S) (hide e) g = rmap hp (deactivate S e g).
Proof.
  unfold deactivate. change (s_camps_are_sinks (off S)) with (s_camps_are_sinks S). destruct (s_camps_are_sinks S); [|reflexivity].
  rewrite len_agents. change (hide e, g) with (hp (e, g)). apply foldM_map. intros [e1 g1] ai. unfold hp at 1. cbn [fst snd].
  readl. intros a _. change (a_travelling (ha a)) with (a_travelling a). destruct (a_travelling a); [reflexivity|].
  change (a_location (ha a)) with (a_location a). destruct (a_location a) as [i|k|i]; try reflexivity. readl. intros l _.
  change (l_camp (hl l)) with (l_camp l). destruct (l_camp l); [|reflexivity]. destruct (rng_u g1) as [u g2].
  change (loc_attrs (hide e1) (hl l)) with (loc_attrs e1 l). into. intros d _. into. intros p _. destruct (Qltb u p); [|reflexivity].
  cbn [rmap]. unfold hp. cbn [fst snd]. do 2 f_equal. symmetry. now apply h_up_agent.
Qed.

Lemma s_evolve fuel S o e g : sim hp (evolve fuel S o e g) (evolve fuel (off S) o (hide e) g).
Proof.
  unfold evolve. apply (sim_bind hide); [apply sim_eq, h_refresh|]. intros e0 _.
  apply (sim_bind hp); [apply s_scores|]. intros [e1 g1] _. unfold hp at 2. cbn [fst snd].
  apply (sim_bind hp); [apply s_agents|]. intros [e2 g2] _. unfold hp at 2. cbn [fst snd].
  apply (sim_bind hp); [apply s_finishes|]. intros [e3 g3] _. unfold hp at 2. cbn [fst snd].
  change (0 <? s_log_agent (off S))%Z with false. change (0 <? s_log_link (off S))%Z with false. cbn iota.
  apply (sim_bind hide).
  { destruct (0 <? s_log_agent S)%Z; [|now apply sim_ok]. intros e4 H. unfold write_agents in H. apply bind_ok in H as (old & _ & H).
    apply bind_ok in H as (rows & _ & H). injection H as <-. reflexivity. }
  intros e4 _. apply (sim_bind hide).
  { destruct (0 <? s_log_link S)%Z; [|now apply sim_ok]. intros e5 H. unfold write_links in H. apply bind_ok in H as (rows & _ & H).
    injection H as <-. reflexivity. }
  intros e5 _. apply (sim_bind hide); [apply sim_eq, h_recent|]. intros e6 _. cbv zeta.
  change (aggregate_arrivals (off S) (hide e6)) with (hide e6). rewrite <- (h_arrivals S e6).
  apply (sim_bind hp); [apply sim_eq, h_deactivate|]. intros [e8 g4] _. now apply sim_ok.
Qed.

(** ** Every call *)

Lemma pure_eq (m m' : res eco) (g : rng) : m' = rmap hide m -> (e1 <- m' ;; Ok (e1, g)) = rmap hp (e1 <- m ;; Ok (e1, g)).
Proof. intros ->. destruct m; reflexivity. Qed.

Theorem h_step o S c e g : (forall fuel, c <> OEvolve fuel) -> step o (off S) c (hide e) g = rmap hp (step o S c e g).
Proof.
  intro N. destruct c; cbn [step].
  - apply h_add_location.
  - apply pure_eq, h_link_up.
  - apply pure_eq, h_attribute.
  - apply pure_eq, h_add.
  - apply pure_eq, h_append.
  - apply pure_eq, h_inserts.
  - apply pure_eq, h_clear.
  - exfalso. exact (N _ eq_refl).
  - apply pure_eq. rewrite h_remove. apply fst_hb.
  - apply pure_eq. rewrite h_reopen. apply fst_hb.
  - apply pure_eq. rewrite h_close_location. apply fst_hb.
  - apply pure_eq. rewrite h_reopen_location. apply fst_hb.
  - apply pure_eq, h_border.
  - apply pure_eq, h_border.
  - apply pure_eq, h_close_camp.
  - apply pure_eq, h_open_camp.
  - apply pure_eq, h_type.
  - apply pure_eq, h_forced.
  - reflexivity.
  - apply pure_eq, h_enact.
  - apply pure_eq, h_refresh.
  - apply pure_eq, h_add_zone.
  - apply pure_eq, h_remove_zone.
  - apply pure_eq, h_set_zone.
  - apply h_initial.
  - rewrite h_spawn, bind_rmap, rmap_bind. apply bind_ext. intros [[[[n sp1] d1] e1] g1] _. reflexivity.
  - apply pure_eq, h_read_agents.
  - rewrite h_store, bind_rmap, rmap_bind. apply bind_ext. intros [[e1 g1] ig1] _. reflexivity.
  - apply pure_eq, h_attributes.
  - apply pure_eq, h_zones.
Qed.

Lemma evolve_or (c : op) : (exists fuel, c = OEvolve fuel) \/ forall fuel, c <> OEvolve fuel.
Proof. destruct c; try (right; intros ? X; discriminate X). left; eauto. Qed.

Theorem s_step o S c e g : sim hp (step o S c e g) (step o (off S) c (hide e) g).
Proof. destruct (evolve_or c) as [(fuel & ->)|N]; [apply s_evolve|now apply sim_eq, h_step]. Qed.

Theorem s_run o h : forall e g, sim hp (run o h e g) (run o (quiet_history h) (hide e) g).
Proof.
  unfold run. induction h as [|[S c] h IH]; intros e g; [now apply sim_ok|]. cbn [foldM quiet_history map fst snd].
  apply (sim_bind hp); [apply s_step|]. intros [e1 g1] _. apply IH.
Qed.

Theorem f_quiet o h e g g0 : run o h empty_eco g0 = Ok (e, g) -> run o (quiet_history h) empty_eco g0 = Ok (without_logs e, g).
Proof. exact (s_run o h empty_eco g0 (e, g)). Qed.

Lemma quiet_logging a l c S : quiet_settings (logging a l c S) = quiet_settings S.
Proof. reflexivity. Qed.
Lemma same_quiet h h' : same_calls h h' -> quiet_history h' = quiet_history h.
Proof.
  induction 1 as [|[S c] [S' c'] h h' [(a & l & k & E) E'] _ IH]; [reflexivity|]. cbn [fst snd] in *. subst. cbn [quiet_history map fst snd].
  f_equal. exact IH.
Qed.

Theorem f_same o h h' e e' g g' g0 : same_calls h h' ->
  run o h empty_eco g0 = Ok (e, g) -> run o h' empty_eco g0 = Ok (e', g') -> without_logs e' = without_logs e /\ g' = g.
Proof.
  intros C R R'. apply f_quiet in R, R'. rewrite (same_quiet _ _ C), R in R'.
  split; [exact (f_equal (fun r => match r with Ok p => fst p | Err _ => hide e end) (eq_sym R'))|
          exact (f_equal (fun r => match r with Ok p => snd p | Err _ => g end) (eq_sym R'))].
Qed.
