(** * Profile: which calls change what a location is *)

From Coq Require Import Lia.
From Verif Require Import Base State Moving Crawling Scoring Diagnostics Flee DataTable
  Spawning InputGeography Api SpecAgents SpecHistory SpecRoutes SpecTravel SpecZones Lemmas Inv InvMoves InvStruct Frames
  ScoreFrames Travel.

(** [profile] with the buffer of arrivals, which only a time step changes *)
Definition profile1 (l : location) : location :=
  up_l_links (fun _ => []) (up_l_closed_links (fun _ => []) (up_l_routes (fun _ => [])
    (up_l_major_routes (fun _ => []) (up_l_numAgents (fun _ => 0%Z) (up_l_numAgentsOnRank (fun _ => 0%Z)
      (up_l_score0 (fun _ => 1%Q) (up_l_score1 (fun _ => 1%Q) l))))))).

Record ProfOf (pr : location -> location) (e e' : eco) : Prop := {
  pf_time : e_time e' = e_time e;
  pf_locs : map pr (e_locations e') = map pr (e_locations e) }.
Notation Prof := (ProfOf profile).
Notation Prof1 := (ProfOf profile1).
Lemma prof_refl pr e : ProfOf pr e e. Proof. split; auto. Qed.
Lemma prof_trans pr a b c : ProfOf pr a b -> ProfOf pr b c -> ProfOf pr a c.
Proof. intros [] []; split; congruence. Qed.
#[export] Hint Resolve prof_refl : core.
Lemma prof_of e e' : Prof1 e e' -> Prof e e'.
Proof. intros [A B]. split; [exact A|]. exact (map_via profile1 profile _ _ B). Qed.

Lemma prof_up_loc pr i f e : (forall l, pr (f l) = pr l) -> ProfOf pr e (up_loc i f e).
Proof. intro H; split; [reflexivity|]. cbn [up_loc up_e_locations e_locations]. now apply map_upd. Qed.
Lemma prof_map pr f e : (forall l, pr (f l) = pr l) -> ProfOf pr e (up_e_locations (map f) e).
Proof. intro H; split; [reflexivity|]. cbn [up_e_locations e_locations]. rewrite map_map. apply map_ext, H. Qed.
Lemma prof_eq pr e e' : e_time e' = e_time e -> e_locations e' = e_locations e -> ProfOf pr e e'.
Proof. intros T L. split; congruence. Qed.

Lemma prof_links pr f e : ProfOf pr e (up_e_links f e). Proof. apply prof_eq; reflexivity. Qed.
Lemma prof_dicts pr f e : ProfOf pr e (up_e_dicts f e). Proof. apply prof_eq; reflexivity. Qed.
Lemma prof_agents pr f e : ProfOf pr e (up_e_agents f e). Proof. apply prof_eq; reflexivity. Qed.
#[export] Hint Resolve prof_links prof_dicts prof_agents : core.

Lemma prof_mv ai e e' : Mv ai e e' -> Prof e e'.
Proof.
  intros [A B _ _ _]. split; [now rewrite A|]. exact (map_via lfix profile _ _ B).
Qed.
Lemma prof1_sc e e' : Sc e e' -> Prof1 e e'.
Proof.
  intros [A B]. split.
  - now rewrite A.
  - exact (map_via lsc profile1 _ _ B).
Qed.
Lemma prof_sc e e' : Sc e e' -> Prof e e'.
Proof. intro H. apply prof_of, prof1_sc, H. Qed.
Lemma prof1_dec p e e' : dec_at p e = Ok e' -> Prof1 e e'.
Proof.
  unfold dec_at; intro H; destruct p; rinv H; try discriminate.
  - apply prof_up_loc. intro l. unfold loc_add. destruct (e_par e); reflexivity.
  - apply prof_eq; reflexivity.
Qed.
Lemma prof_refresh pr S e e' : refresh_spawn_weights S e = Ok e' -> ProfOf pr e e'.
Proof. unfold refresh_spawn_weights; intro H; rinv H. apply prof_eq; reflexivity. Qed.

Lemma prof_handle_travel S ai p tr e e' : handle_travel S ai p tr e = Ok e' -> Prof e e'.
Proof. intro H. eapply prof_mv, (mv_handle_travel ai); eauto. Qed.
Lemma prof_up_agent pr i f e : ProfOf pr e (up_agent i f e).
Proof. apply prof_eq; reflexivity. Qed.
#[export] Hint Resolve prof_up_agent : core.

Lemma prof_person_evolve S o t f ai e g e' g' : person_evolve S o t f ai e g = Ok (e', g') -> Prof e e'.
Proof.
  intros H. apply person_evolve_spec in H as [->|(a & i & l & rest & _ & _ & _ & _ & H)]; auto.
  destruct H as [->|(ki & _ & H)]; auto.
  eapply prof_trans; [|eapply prof_handle_travel; exact H]. auto.
Qed.

Lemma prof_finish_travel fuel S o t ai e g e' g' :
  finish_travel fuel S o t ai e g = Ok (e', g') -> Prof e e'.
Proof.
  revert e g; induction fuel as [|fuel IH]; intros e g H; cbn [finish_travel] in H;
    unfold agent_of in H; rstep H; apply of_option_ok in E; (rstep H; [rinv H; auto|]);
    [discriminate|].
  rstep H; try discriminate. rstep H. rstep H. destruct v1 as [speed g1]. cbv zeta in H.
  match type of H with context [up_agent ai ?f e] => set (e1 := up_agent ai f e) in * end.
  assert (S1 : Prof e e1) by apply prof_up_agent. clearbody e1.
  rstep H; [|rinv H; assumption].
  match type of H with context [up_agent ai ?f e1] => set (e2 := up_agent ai f e1) in * end.
  assert (S2 : Prof e e2) by (eapply prof_trans; [exact S1|apply prof_up_agent]). clearbody e2.
  rstep H.
  - rstep H. rinv H. eapply prof_trans; [exact S2|eapply prof_handle_travel; eassumption].
  - rstep H.
    assert (I3 : Prof e v1).
    { eapply prof_trans; [|eapply prof_handle_travel; eassumption].
      eapply prof_trans; [exact S2|].
      match goal with |- context [if ?b then _ else _] => destruct b end; auto. }
    rstep H.
    match type of H with context [if ?b then up_loc ?i ?f v1 else v1] =>
      assert (I4 : Prof e (if b then up_loc i f v1 else v1)) by
        (destruct b; auto; eapply prof_trans; [exact I3|apply prof_up_loc; reflexivity]) end.
    match type of H with (if ?b then _ else _) = _ => destruct b end.
    + rstep H. rstep H. destruct v4 as [e6 g2]. eapply prof_trans; [|eapply IH; exact H].
      eapply prof_trans; [exact I4|]. eapply prof_person_evolve; eassumption.
    + rinv H. exact I4.
Qed.

Lemma prof_foldM2 {A} (f : eco * rng -> A -> res (eco * rng)) l e g e' g' :
  (forall e g a e' g', f (e, g) a = Ok (e', g') -> Prof e e') ->
  foldM f l (e, g) = Ok (e', g') -> Prof e e'.
Proof.
  intros Hf H. eapply (foldM_rel (fun s s' => Prof (fst s) (fst s'))) in H;
    [exact H|auto|eauto using prof_trans|]. intros [] a [] _ Hs. eapply Hf; exact Hs.
Qed.

Lemma prof_evolve_agents S o e g e' g' : evolve_agents S o e g = Ok (e', g') -> Prof e e'.
Proof.
  unfold evolve_agents; intros H. eapply prof_foldM2; [|exact H].
  clear. intros e g ai e' g' H. cbv zeta beta iota in H. rstep H.
  eapply prof_trans with (if (1 <? s_log_agent S)%Z
                    then up_agent ai (up_a_locations_visited (fun _ => [])) e else e).
  { destruct (1 <? s_log_agent S)%Z; auto. }
  rstep H; [eapply prof_person_evolve; eauto.. | rinv H; auto].
Qed.
Lemma prof_finish_agents fuel S o e g e' g' : finish_agents fuel S o e g = Ok (e', g') -> Prof e e'.
Proof.
  unfold finish_agents; intros H. eapply prof_foldM2; [|exact H].
  clear. intros e g ai e' g' H. cbv beta iota in H. rstep H.
  rstep H; [| |rinv H; auto]; (rstep H; destruct v0; rinv H; eapply prof_trans; [eapply prof_finish_travel; eassumption|auto]).
Qed.
Lemma prof_aggregate S e : Prof e (aggregate_arrivals S e).
Proof.
  unfold aggregate_arrivals. destruct (0 <? s_log_camp S)%Z; auto. split; [reflexivity|].
  cbn [up_e_travel_durations up_e_num_arrivals up_e_locations e_locations]. rewrite map_map. apply map_ext.
  intro l. destruct (l_camp l); reflexivity.
Qed.

Lemma prof_deactivate S e g e' g' : deactivate S e g = Ok (e', g') -> Prof e e'.
Proof.
  unfold deactivate; intro H. rstep H; [|rinv H; auto]. eapply prof_foldM2; [|exact H].
  clear. intros e g ai e' g' Hs. cbv beta iota in Hs. rstep Hs. rstep Hs; [rinv Hs; auto|].
  rstep Hs; try discriminate; [|rinv Hs; auto]. rstep Hs. rstep Hs; [|rinv Hs; auto].
  destruct (rng_u g) eqn:Eu. do 2 rstep Hs. rstep Hs; rinv Hs; auto.
Qed.

(** A step only moves the clock. *)
Theorem evolve_profile fuel S o e g e' g' : evolve fuel S o e g = Ok (e', g') ->
  map profile (e_locations e') = map profile (e_locations e) /\ e_time e' = (e_time e + 1)%Z.
Proof.
  unfold evolve; intro H. rstep H. apply (prof_refresh profile) in E. rstep H. destruct v0 as [e1 g1].
  apply sc_update_scores in E0 as [E0 _]. apply prof_sc in E0.
  rstep H. destruct v0 as [e2 g2]. apply prof_evolve_agents in E1. rstep H. destruct v0 as [e3 g3]. apply prof_finish_agents in E2.
  rstep H. rstep H. rstep H. cbv zeta in H. rstep H. destruct v3 as [e8 g4]. rinv H.
  assert (A : Prof e3 v0) by (destruct (0 <? s_log_agent S)%Z; [unfold write_agents in E3|]; rinv E3; apply prof_eq; reflexivity).
  assert (B : Prof v0 v1) by (destruct (0 <? s_log_link S)%Z; [unfold write_links in E4|]; rinv E4; apply prof_eq; reflexivity).
  assert (C : Prof v1 v2) by (unfold update_recent in E5; rinv E5; apply prof_eq; reflexivity).
  assert (D : Prof (aggregate_arrivals S v2) e8).
  { eapply prof_deactivate; eauto. }
  assert (F : Prof e e8) by (do 2 (eapply prof_trans; [eassumption|]); do 5 (eapply prof_trans; [eassumption|]); eapply prof_trans; [apply prof_aggregate|exact D]).
  destruct F as [F1 F2]. split; [exact F2|]. cbn. lia.
Qed.

(** ** Calls other than [evolve] *)

Lemma prof_remove_1way s t co e e' b : remove_link_1way s t co e = Ok (e', b) -> Prof1 e e'.
Proof.
  unfold remove_link_1way; intro H. cbv zeta in H. rstep H. rstep H. destruct v0 as [[e1 nw] rm]. rinv H.
  assert (A : Prof1 e e1).
  { eapply (foldM_rel (fun s s' => Prof1 (fst (fst s)) (fst (fst s')))) in E0; [exact E0|auto|eauto using prof_trans|].
    intros [[ea eb] ec] ki [[ea' eb'] ec'] _ Hs. cbn [fst]. unfold remove_step in Hs. do 2 rstep Hs. rstep Hs; [rinv Hs; auto|].
    cbv zeta in Hs. rinv Hs; auto; (eapply prof_trans; [|apply prof_up_loc; reflexivity]; apply prof_eq; reflexivity). }
  eapply prof_trans; [exact A|]. apply prof_up_loc; reflexivity.
Qed.
Lemma prof_reopen_1way s t e e' b : reopen_link_1way s t e = Ok (e', b) -> Prof1 e e'.
Proof.
  unfold reopen_link_1way; intro H. cbv zeta in H. rstep H. rstep H. destruct v0 as [[e1 nw] rm]. rinv H.
  assert (A : Prof1 e e1).
  { eapply (foldM_rel (fun s s' => Prof1 (fst (fst s)) (fst (fst s')))) in E0; [exact E0|auto|eauto using prof_trans|].
    intros [[ea eb] ec] ki [[ea' eb'] ec'] _ Hs. cbn [fst]. unfold reopen_step in Hs. do 2 rstep Hs. rstep Hs; [rinv Hs; auto|].
    cbv zeta in Hs. rinv Hs; auto. eapply prof_trans; [|apply prof_links]. apply prof_up_loc; reflexivity. }
  eapply prof_trans; [exact A|]. apply prof_up_loc; reflexivity.
Qed.

(** A dictionary may be added; the new location starts with no agents spawned, no conflict
    before day 0 and the given population. *)
Lemma add_location_profile1 S o n r x y lt mc cap pop f c at_ e g e' g' :
  add_location S o n r x y lt mc cap pop f c at_ e g = Ok (e', g') ->
  exists d did l, new_location S d n r x y lt mc cap pop f c did = Ok l /\
    map profile1 (e_locations e') = map profile1 (e_locations e) ++ [profile1 l] /\ e_time e' = e_time e.
Proof.
  unfold add_location; intro H.
  set (e0 := match at_ with None => e | Some d => up_e_dicts (fun ds => ds ++ [d]) e end).
  set (did := match at_ with None => 0%nat | Some _ => List.length (e_dicts e) end) in *.
  assert (P : match at_ with
              | None => (e, 0%nat)
              | Some d => (up_e_dicts (fun ds => ds ++ [d]) e, List.length (e_dicts e))
              end = (e0, did)) by (unfold e0, did; destruct at_; reflexivity).
  rewrite P in H; clear P. cbv beta iota in H.
  rstep H. rstep H. cbv zeta in H. rstep H. destruct v1 as [e1 g1]. rstep H. rinv H.
  exists v, did, v0. split; [exact E0|]. apply sc_updateLocationScore in E1 as [E1 _]. apply prof1_sc in E1 as [T1 L1].
  apply (prof_refresh profile1) in E2 as [T2 L2]. 
  assert (T0 : e_time e0 = e_time e /\ e_locations e0 = e_locations e) by (unfold e0; destruct at_; split; reflexivity).
  destruct T0 as [T0 L0]. cbn [up_e_locations e_locations e_time up_e_locationNames up_e_spawn_weights] in *.
  rewrite L2, T2. rewrite L1, T1, L0, map_app. split; [reflexivity|exact T0].
Qed.
Lemma add_location_profile S o n r x y lt mc cap pop f c at_ e g e' g' :
  add_location S o n r x y lt mc cap pop f c at_ e g = Ok (e', g') ->
  exists d did l, new_location S d n r x y lt mc cap pop f c did = Ok l /\
    map profile (e_locations e') = map profile (e_locations e) ++ [profile l] /\ e_time e' = e_time e.
Proof.
  intro H. apply add_location_profile1 in H as (d & did & l & N & E & T). exists d, did, l. split; [exact N|]. split; [|exact T].
  apply (f_equal (map profile)) in E. rewrite map_app, !map_map in E. exact E.
Qed.
Lemma new_location_fresh S d n r x y lt mc cap pop f c did l : new_location S d n r x y lt mc cap pop f c did = Ok l ->
  l_time_of_conflict l = (-1)%Z /\ l_pop l = pop /\ l_numAgentsSpawned l = 0%Z /\ l_capacity l = cap /\
  l_name l = n /\ l_region l = r /\ l_country l = c /\ l_foreign l = f /\ l_x l = x /\ l_y l = y.
Proof.
  unfold new_location; intro H. rstep H. rinv H. unfold parse_location_type in E.
  assert (X : forall l, l_time_of_conflict (auto_camp l) = l_time_of_conflict l /\ l_pop (auto_camp l) = l_pop l /\
    l_numAgentsSpawned (auto_camp l) = l_numAgentsSpawned l /\ l_capacity (auto_camp l) = l_capacity l /\
    l_name (auto_camp l) = l_name l /\ l_region (auto_camp l) = l_region l /\ l_country (auto_camp l) = l_country l /\
    l_foreign (auto_camp l) = l_foreign l /\ l_x (auto_camp l) = l_x l /\ l_y (auto_camp l) = l_y l)
    by (intro; unfold auto_camp; destruct (_ && _)%bool; repeat split; reflexivity).
  destruct (X v) as (-> & -> & -> & -> & -> & -> & -> & -> & -> & ->). clear X.
  rinv E; repeat split; reflexivity.
Qed.

(** [addAgent] with [take_from_population] (flee/flee.py 1753-1776) *)
Definition take (l : location) : location :=
  up_l_numAgentsSpawned (fun z => z + 1)%Z (if (0 <? l_pop l)%Z then up_l_pop (fun z => z - 1)%Z l else l).

Section ProfileRel.
  Context (S : settings) (R : eco -> eco -> Prop).
  Hypothesis Rtrans : forall a b c, R a b -> R b c -> R a c.
  Hypothesis Rprof : forall e e', Prof1 e e' -> R e e'.
  Hypothesis Rloc : forall o n r x y lt mc cap pop f c at_ e g e' g',
    add_location S o n r x y lt mc cap pop f c at_ e g = Ok (e', g') -> R e e'.
  Hypothesis Rtake : forall i e, s_TakeFromPopulation S = true -> R e (up_loc i take e).
  Hypothesis Rtype : forall i f e, (forall l, untyped (f l) = untyped l) -> R e (up_loc i f e).
  Hypothesis Rzone : forall i e, R e (up_loc i (up_l_time_of_conflict (fun _ => e_time e)) e).
  Hypothesis Rcap : forall d e, R e (reduce_capacities d e).

  Let Rrefl e : R e e := Rprof e e (prof_refl _ e).
  Hint Resolve Rrefl : core.

  Lemma pr_append i at_ e e' : append_agent i at_ e = Ok e' -> R e e'.
  Proof.
    unfold append_agent; intro H; rinv H. apply Rprof. eapply prof_trans; [|apply prof_up_loc].
    - apply prof_eq; reflexivity.
    - intro l. unfold loc_add. destruct (e_par e); reflexivity.
  Qed.
  Lemma pr_add_agent i at_ e e' : add_agent S i at_ e = Ok e' -> R e e'.
  Proof.
    unfold add_agent; intro H; rstep H. cbv zeta in H. apply pr_append in H. eapply Rtrans; [|exact H].
    destruct (s_TakeFromPopulation S) eqn:T; [|auto]. exact (Rtake i e eq_refl).
  Qed.
  Lemma pr_foldM {A} (f : eco -> A -> res eco) l e e' :
    (forall e1 a e2, f e1 a = Ok e2 -> R e1 e2) -> foldM f l e = Ok e' -> R e e'.
  Proof. intros Hf H. eapply (foldM_rel R) in H; [exact H|auto|eauto|eauto]. Qed.
  Lemma pr_foldM2 {A B} (f : eco * B -> A -> res (eco * B)) l e g e' g' :
    (forall e1 g1 a e2 g2, f (e1, g1) a = Ok (e2, g2) -> R e1 e2) ->
    foldM f l (e, g) = Ok (e', g') -> R e e'.
  Proof.
    intros Hf H. eapply (foldM_rel (fun s s' => R (fst s) (fst s'))) in H; [exact H|auto|eauto|].
    intros [e1 g1] a [e2 g2] _ Hs. cbn. eapply Hf; eauto.
  Qed.
  Lemma pr_spawn_one dm t i e g e' g' : spawn_one S dm t i (e, g) = Ok (e', g') -> R e e'.
  Proof.
    unfold spawn_one; intros H. do 2 rstep H. destruct v0. rstep H. rinv H.
    destruct t; [eapply pr_add_agent | eapply pr_append]; eauto.
  Qed.
  Lemma pr_spawns {A} dm t (f : A -> nat) l e g e' g' :
    foldM (fun st a => spawn_one S dm t (f a) st) l (e, g) = Ok (e', g') -> R e e'.
  Proof. apply pr_foldM2. intros; eapply pr_spawn_one; eauto. Qed.
  Lemma pr_spawn_loop dm num e g n e' g' : spawn_loop S dm num e g = Ok (n, e', g') -> R e e'.
  Proof.
    unfold spawn_loop; intros H.
    eapply (foldM_rel (fun s s' => R (snd (fst s)) (snd (fst s')))) in H; [exact H|auto|eauto|].
    intros [[t1 e1] g1] i [[t2 e2] g2] _ H1. cbn [fst snd] in *. do 2 rstep H1. destruct v0.
    rstep H1. destruct v0. rinv H1. eapply (pr_spawns dm _ (fun _ => _)); eauto.
  Qed.
  Lemma pr_close s t e e' b : close_link s t false e = Ok (e', b) -> R e e'.
  Proof. intro H. eapply Rprof, prof_remove_1way; exact H. Qed.
  Lemma pr_reopen s t e e' b : reopen_link s t false e = Ok (e', b) -> R e e'.
  Proof. intro H. eapply Rprof, prof_reopen_1way; exact H. Qed.
  Lemma pr_close2 s t tw e e' b : close_link s t tw e = Ok (e', b) -> R e e'.
  Proof. destruct tw; [|apply pr_close]. intro H. eapply (pr_close t s). exact H. Qed.
  Lemma pr_reopen2 s t tw e e' b : reopen_link s t tw e = Ok (e', b) -> R e e'.
  Proof. destruct tw; [|apply pr_reopen]. intro H. eapply (pr_reopen t s). exact H. Qed.
  Lemma pr_named n f e e' : (forall l, untyped (f l) = untyped l) -> on_named_loc n f e = Ok e' -> R e e'.
  Proof. unfold on_named_loc; intros Hf H; cbv zeta in H; rinv H. now apply Rtype. Qed.
  Lemma pr_close_camp n i e e' : close_camp S n i e = Ok e' -> R e e'.
  Proof. apply pr_named. reflexivity. Qed.
  Lemma pr_open_camp n i e e' : open_camp S n i e = Ok e' -> R e e'.
  Proof. apply pr_named. intro l. unfold loc_open_camp. destruct i; reflexivity. Qed.
  Lemma pr_type n t e e' : change_location_type S n t e = Ok e' -> R e e'.
  Proof.
    unfold change_location_type; intro H. cbv zeta in H.
    repeat (rstep H; [first [solve [eapply pr_named; [|exact H]; intro; try destruct (str_in "idp" _); reflexivity] | rstep H; discriminate]|]).
    rstep H. discriminate.
  Qed.
  Lemma pr_forced n m v e e' : set_forced_redirection n m v e = Ok e' -> R e e'.
  Proof.
    unfold set_forced_redirection; intro H; rstep H. eapply pr_foldM; [|exact H]; cbv beta iota.
    intros e1 k e2 Hs. do 2 rstep Hs. rinv Hs; auto. apply Rprof, prof_eq; reflexivity.
  Qed.
  Lemma pr_enact fuel t tw e e' : enact_border_closures fuel S t tw e = Ok e' -> R e e'.
  Proof.
    unfold enact_border_closures; intro H. eapply pr_foldM; [|exact H]; cbv beta iota. clear e e' H.
    intros e c e' H. unfold enact_one in H. rstep H. eapply Rtrans with v.
    - rstep E; [|rinv E; auto]. unfold enact_close in E.
      rstep E; [eapply (change_border_rel R); eauto using pr_close, pr_reopen|].
      rstep E; [rstep E; destruct v0; subst; eapply (change_location_rel R); eauto using pr_close, pr_reopen|].
      rstep E; [rstep E; destruct v0; subst; eapply pr_close2; eassumption|].
      rstep E; [eapply pr_close_camp; eauto|].
      rstep E; [eapply pr_close_camp; eauto|].
      rstep E; [eapply pr_forced; eauto|]. rinv E; auto.
    - rstep H; [|rinv H; auto]. unfold enact_open in H.
      rstep H; [eapply (change_border_rel R); eauto using pr_close, pr_reopen|].
      rstep H; [rstep H; destruct v0; subst; eapply (change_location_rel R); eauto using pr_close, pr_reopen|].
      rstep H; [rstep H; destruct v0; subst; eapply pr_reopen2; eassumption|].
      rstep H; [eapply pr_open_camp; eauto|].
      rstep H; [eapply pr_open_camp; eauto|].
      rstep H; [eapply pr_forced; eauto|]. rinv H; auto.
  Qed.
  Lemma pr_add_conflict n q c e e' : add_conflict_zone S n q c e = Ok e' -> R e e'.
  Proof.
    unfold add_conflict_zone; intro H. rstep H; [|rinv H; auto]. rstep H. apply (prof_refresh profile1), Rprof in H.
    eapply Rtrans; [|exact H]. clear H e' E.
    set (f := fun l => if c then up_l_town (fun _ => false) (set_conflict q (set_movechance (s_ConflictMoveChance S) l)) else l).
    change (R e (up_loc n0 (fun l => up_l_time_of_conflict (fun _ => e_time e) (f l)) e)).
    eapply Rtrans; [apply (Rtype n0 f e); intro l; unfold f; destruct c; reflexivity|].
    rewrite <- (up_loc_up_loc n0 f (up_l_time_of_conflict (fun _ => e_time e))). exact (Rzone n0 (up_loc n0 f e)).
  Qed.
  Lemma pr_remove_conflict n c e e' : remove_conflict_zone S n c e = Ok e' -> R e e'.
  Proof.
    unfold remove_conflict_zone; intro H. rstep H. apply (prof_refresh profile1), Rprof in H. eapply Rtrans; [|exact H].
    eapply pr_foldM; [|exact E]; cbv beta iota. intros e1 i e2 Hs. rstep Hs. rstep Hs; [|rinv Hs; auto]. rinv Hs.
    apply Rtype. intro l. destruct c; reflexivity.
  Qed.
  Lemma pr_intensity n q c e e' : set_conflict_intensity S n q c e = Ok e' -> R e e'.
  Proof.
    unfold set_conflict_intensity; intro H. rstep H; [eapply pr_remove_conflict | eapply pr_add_conflict]; eauto.
  Qed.
  Lemma pr_set_attr i k v e e' : set_loc_attribute i k v e = Ok e' -> R e e'.
  Proof. unfold set_loc_attribute; intro H; rinv H. apply Rprof, prof_eq; reflexivity. Qed.
  Lemma pr_update_attributes ig a t e e' : update_attributes ig a t e = Ok e' -> R e e'.
  Proof.
    unfold update_attributes; intro H; rstep H. eapply pr_foldM; [|exact H]; cbv beta iota.
    intros e1 i e2 Hs. do 2 rstep Hs. eapply pr_set_attr; eauto.
  Qed.
  Lemma pr_new_zones f ig t e e' : add_new_conflict_zones S f ig t e = Ok e' -> R e e'.
  Proof.
    unfold add_new_conflict_zones; intro H; do 2 rstep H. eapply Rtrans with v0.
    { unfold apply_changes in E0. eapply pr_foldM; [|exact E0]; cbv beta iota. intros e1 c e2 Hs. do 2 rstep Hs. rstep Hs; [|rinv Hs; auto].
      do 2 rstep Hs. eapply pr_type; eauto. }
    rstep H; [|rstep H].
    - rstep H. rstep H; [eapply Rtrans|rinv H]; eapply pr_update_attributes; eauto.
    - eapply pr_foldM; [|exact H]; cbv beta iota. intros e1 [n vs] e2 Hs. unfold conflict_step in Hs.
      rstep Hs; [discriminate|]. do 2 rstep Hs. eapply Rtrans with v2.
      + rinv E2; auto; first [eapply pr_intensity; eassumption | eapply pr_add_conflict; eassumption].
      + rinv Hs; auto. eapply pr_intensity; eauto.
    - unfold conflicts_from_locations in H. eapply pr_foldM; [|exact H]; cbv beta iota.
      intros e1 l e2 Hs. rstep Hs. rstep Hs; [|rinv Hs; auto]. do 2 rstep Hs.
      rstep Hs; [|rinv Hs; auto]. do 3 rstep Hs. eapply pr_add_conflict; eauto.
  Qed.
  Lemma pr_link_up n1 n2 d f at_ e e' : link_up n1 n2 d f at_ e = Ok e' -> R e e'.
  Proof.
    unfold link_up; intro H. cbv zeta in H. rstep H; [|discriminate]. rstep H; [|discriminate]. do 2 rstep H.
    apply Rprof.
    destruct at_ as [d0|]; rinv H;
      (eapply prof_trans; [|apply prof_up_loc; reflexivity];
       eapply prof_trans; [|apply prof_links];
       eapply prof_trans; [|apply prof_up_loc; reflexivity]; first [solve [auto] | eapply prof_trans; [|apply prof_links]; auto]).
  Qed.
  Lemma pr_clear ns e e' : clear_locations ns e = Ok e' -> R e e'.
  Proof.
    unfold clear_locations; intro H; rinv H. eapply Rtrans; [|apply Rprof, prof_agents].
    eapply pr_foldM; [|exact E]; cbv beta iota. intros e1 a e2 Hs. rstep Hs. rstep Hs; [|discriminate].
    apply Rprof. eapply prof1_dec; eauto.
  Qed.
  Lemma pr_store_input o f ig ch e g e' g' ig' : store_input S o f ig ch e g = Ok (e', g', ig') -> R e e'.
  Proof.
    unfold store_input; intro H. do 2 rstep H. cbv zeta in H. rstep H. destruct v1 as [e1 g1].
    do 4 rstep H. rinv H.
    eapply (Rtrans _ v1); [|apply Rprof, prof_eq; reflexivity].
    eapply Rtrans with e1.
    - eapply pr_foldM2; [|exact E1]; cbv beta iota. intros e2 g2 l e3 g3 Hs. unfold store_location in Hs.
      do 10 rstep Hs. cbv zeta in Hs. rstep Hs.
      do 2 rstep Hs. cbv zeta in Hs. rstep Hs.
      repeat match goal with x : eco * rng |- _ => destruct x end.
      rstep Hs. rinv Hs. eapply Rtrans; [eapply Rloc; eassumption|].
      apply Rprof, prof_up_loc; reflexivity.
    - eapply pr_foldM; [|exact E2]; cbv beta iota. intros e2 lk e3 Hs. unfold store_link in Hs. rstep Hs. cbv zeta in Hs.
      assert (U : forall (forced swap : bool) a e e',
        (n1 <- cellv lk 0 ;; n2 <- cellv lk 1 ;; c2 <- cellv lk 2 ;;
         dist <- of_option ValueError (parse_Q c2) ;;
         if swap then link_up n2 n1 dist forced (Some a) e
         else link_up n1 n2 dist forced (Some a) e) = Ok e' -> R e e').
      { intros fo sw a ea eb Hu. do 4 rstep Hu. rstep Hu; eapply pr_link_up; eauto. }
      rstep Hs; [|eapply (U false false); exact Hs]. rstep Hs.
      rstep Hs.
      match goal with E : (if _ then _ else Ok e2) = Ok ?w |- _ => eapply Rtrans with w;
        [rstep E; [eapply (U true false); exact E|rinv E; auto]|] end.
      rstep Hs; [eapply (U true true); exact Hs|eapply (U false false); exact Hs].
  Qed.

  Theorem step_profile o c e g e' g' : is_evolve c = false -> step o S c e g = Ok (e', g') -> R e e'.
  Proof.
    intros Nev H. destruct c; try discriminate; cbn [step] in H;
      try (rstep H; rinv H);
      try match goal with E : rmap fst _ = Ok _ |- _ =>
            let P := fresh in apply rmap_ok in E as ([? ?] & P & ->); cbn [fst] end.
    - eapply Rloc; eauto.
    - eapply pr_link_up; eauto.
    - eapply pr_set_attr; eauto.
    - eapply pr_add_agent; eauto.
    - eapply pr_append; eauto.
    - eapply pr_foldM; [|exact E]; cbv beta iota. intros; eapply pr_append; eauto.
    - eapply pr_clear; eauto.
    - apply Rprof. destruct twoway; eapply prof_remove_1way; eauto.
    - apply Rprof. destruct twoway; eapply prof_reopen_1way; eauto.
    - eapply (change_location_rel R); eauto using pr_close, pr_reopen.
    - eapply (change_location_rel R); eauto using pr_close, pr_reopen.
    - eapply (change_border_rel R); eauto using pr_close, pr_reopen.
    - eapply (change_border_rel R); eauto using pr_close, pr_reopen.
    - eapply pr_close_camp; eauto.
    - eapply pr_open_camp; eauto.
    - eapply pr_type; eauto.
    - eapply pr_forced; eauto.
    - rinv H. apply Rprof, prof_eq; reflexivity.
    - eapply pr_enact; eauto.
    - eapply Rprof, prof_refresh; eauto.
    - eapply pr_add_conflict; eauto.
    - eapply pr_remove_conflict; eauto.
    - eapply pr_intensity; eauto.
    - unfold add_initial_refugees in H. rstep H; [rinv H; auto|]. do 4 rstep H.
      eapply (pr_spawns dm _ (fun _ => _)); eauto.
    - unfold spawn_daily_displaced in E.
      rstep E; [|rstep E]; [rstep E; destruct v as [[? ?] ?]; rinv E; eapply pr_spawn_loop; eauto..|].
      rstep E. destruct v. rstep E. destruct v. cbv zeta in E.
      match type of E with (let (_, _) := ?x in _) = _ => destruct x end.
      rstep E. destruct v. rstep E. destruct v. rinv E.
      eapply Rtrans; [|eapply (pr_spawns dm true (fun i => i)); eassumption].
      destruct (_ && _)%bool; auto.
    - unfold read_agents in E. rstep E. destruct v as [[? ?] ?]. rinv E.
      eapply (foldM_rel (fun s s' => R (snd s) (snd s'))) in E0; [exact E0|auto|eauto|].
      intros [[f h] e1] r [[f2 h2] e2] _ H1. unfold read_agent_row in H1. cbn [snd] in *.
      rstep H1. rstep H1; [rinv H1; auto|]. rstep H1; [rinv H1; auto|]. do 3 rstep H1. rinv H1.
      match goal with E : foldM _ _ _ = Ok _ |- _ => eapply pr_foldM; [|exact E]; cbv beta iota end.
      intros e3 i e4 H3. rstep H3. rstep H3; [eapply pr_add_agent; eauto | rinv H3; auto].
    - eapply pr_store_input; eauto.
    - eapply pr_update_attributes; eauto.
    - eapply pr_new_zones; eauto.
  Qed.
End ProfileRel.
