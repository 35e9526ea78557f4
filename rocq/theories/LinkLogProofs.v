(** * LinkLogProofs: calls that leave the counters alone, and the link log *)

From Coq Require Import Lia.
From Verif Require Import Base State Moving Crawling Scoring Diagnostics Flee DataTable
  Spawning InputGeography Api SpecAgents SpecHistory SpecTraffic Lemmas Inv InvMoves InvStruct Frames
  ScoreFrames Travel Profile Zones ReportProofs Traffic TrafficProofs CoreProofs.
Local Open Scope list_scope.

(** ** Calls other than evolve *)

Definition Keep (e e' : eco) : Prop :=
  forall ki k, nth_error (e_links e) ki = Some k ->
    exists k', nth_error (e_links e') ki = Some k' /\ ktab k' = ktab k.

Lemma keep_refl e : Keep e e.
Proof. intros ki k H; eauto. Qed.
Lemma keep_trans a b c : Keep a b -> Keep b c -> Keep a c.
Proof.
  intros H1 H2 ki k H. destruct (H1 ki k H) as (k1 & K1 & A1). destruct (H2 ki k1 K1) as (k2 & K2 & B1).
  exists k2; split; [assumption|congruence].
Qed.
Lemma keep_still e e' : Still e e' -> Keep e e'.
Proof. intros S ki k H. apply tabs_still in S. exact (map_eq_nth ktab ktab _ _ ki k S H). Qed.
Lemma keep_eq e e' : e_links e' = e_links e -> Keep e e'.
Proof. intros H ki k K. exists k. rewrite H. auto. Qed.
Lemma keep_app e e' l : e_links e' = e_links e ++ l -> Keep e e'.
Proof.
  intros H ki k K. exists k. rewrite H, nth_error_app1 by now apply nth_error_lt in K. auto.
Qed.
Lemma keep_upd e e' n f : e_links e' = upd n f (e_links e) ->
  (forall k, nth_error (e_links e) n = Some k -> ktab (f k) = ktab k) -> Keep e e'.
Proof.
  intros H Hf ki k K. rewrite H, nth_upd, K. destruct (Nat.eqb_spec n ki) as [->|].
  - eexists; split; [reflexivity|auto].
  - eexists; split; [reflexivity|auto].
Qed.
#[export] Hint Resolve keep_refl keep_still : core.
Lemma keep_dec p e e' : dec_at p e = Ok e' -> Keep e e'.
Proof.
  intros H ki k K. apply tabs_dec in H. exact (map_eq_nth ktab ktab _ _ ki k H K).
Qed.
Lemma keep_foldM2 {A B} (f : eco * B -> A -> res (eco * B)) l e g e' g' :
  (forall e g a e' g', f (e, g) a = Ok (e', g') -> Keep e e') ->
  foldM f l (e, g) = Ok (e', g') -> Keep e e'.
Proof.
  intros Hf H. eapply (foldM_rel (fun s s' => Keep (fst s) (fst s'))) in H;
    [exact H|auto|eauto using keep_trans|]. intros [] a [] _ Hs. eapply Hf; exact Hs.
Qed.

Lemma keep_add_location S o n r x y lt mc cap pop f c at_ e g e' g' :
  add_location S o n r x y lt mc cap pop f c at_ e g = Ok (e', g') -> Keep e e'.
Proof.
  unfold add_location; intro H.
  rstep H. rstep H. cbv zeta in H. do 2 rstep H. destruct v1. rstep H. rinv H.
  assert (Q0 : Keep e a) by (destruct at_; inversion Heqp; subst; auto using keep_eq).
  eapply keep_trans; [exact Q0|]. eapply keep_trans; [|eapply keep_still, still_refresh; eauto].
  assert (Q1 : Keep a e0).
  { eapply keep_trans; [|eapply keep_still, still_updateLocationScore; eauto]. now apply keep_eq. }
  eapply keep_trans; [exact Q1|now apply keep_eq].
Qed.
Lemma keep_link_up n1 n2 d f at_ e e' : link_up n1 n2 d f at_ e = Ok e' -> Keep e e'.
Proof.
  intro H. apply link_up_spec in H as (i1 & i2 & e0 & did & _ & _ & _ & _ & C & ->).
  destruct C as [(-> & -> & ->)|(a & -> & -> & ->)]; unfold kapp; cbn; 
  eapply keep_app; cbn; rewrite <- app_assoc; reflexivity.
Qed.
Lemma keep_remove_1way s t co e e' b : remove_link_1way s t co e = Ok (e', b) -> Keep e e'.
Proof.
  unfold remove_link_1way; intro H. rstep H. rstep H. destruct v0 as [[e1 l] r]. rinv H.
  apply keep_trans with e1; [|now apply keep_eq].
  eapply (foldM_rel (fun s s' => Keep (fst (fst s)) (fst (fst s')))) in E0;
    [exact E0|auto|eauto using keep_trans|].
  intros [[e2 l2] r2] ki [[e3 l3] r3] _ Hs. unfold remove_step in Hs. cbn [fst].
  rinv Hs; auto.
  match goal with |- Keep _ (up_loc ?i ?f (up_e_links ?h ?x)) =>
    apply keep_trans with x; [|eapply keep_app; reflexivity] end.
  eapply keep_upd; [reflexivity|]. reflexivity.
Qed.
Lemma keep_reopen_1way s t e e' b : reopen_link_1way s t e = Ok (e', b) -> Keep e e'.
Proof.
  unfold reopen_link_1way; intro H. rstep H. rstep H. destruct v0 as [[e1 l] r]. rinv H.
  apply keep_trans with e1; [|now apply keep_eq].
  eapply (foldM_rel (fun s s' => Keep (fst (fst s)) (fst (fst s')))) in E0;
    [exact E0|auto|eauto using keep_trans|].
  intros [[e2 l2] r2] ki [[e3 l3] r3] _ Hs. unfold reopen_step in Hs. cbn [fst].
  rinv Hs; auto. eapply keep_upd; [reflexivity|]. reflexivity.
Qed.
Lemma keep_close s t e e' b : close_link s t false e = Ok (e', b) -> Keep e e'.
Proof. apply keep_remove_1way. Qed.
Lemma keep_reopen s t e e' b : reopen_link s t false e = Ok (e', b) -> Keep e e'.
Proof. apply keep_reopen_1way. Qed.

Lemma keep_spawns {A} S dm t (f : A -> nat) l e g e' g' :
  foldM (fun st a => spawn_one S dm t (f a) st) l (e, g) = Ok (e', g') -> Keep e e'.
Proof.
  apply keep_foldM2. intros; eapply keep_eq, links_spawn_one; eauto.
Qed.
Lemma keep_spawn_loop S dm num e g n e' g' :
  spawn_loop S dm num e g = Ok (n, e', g') -> Keep e e'.
Proof.
  unfold spawn_loop; intros H.
  eapply (foldM_rel (fun s s' => Keep (snd (fst s)) (snd (fst s')))) in H;
    [exact H|auto|eauto using keep_trans|].
  intros [[t1 e1] g1] i [[t2 e2] g2] _ H1. cbn [fst snd] in *. do 2 rstep H1. destruct v0.
  rstep H1. destruct v0. rinv H1. eapply (keep_spawns S dm _ (fun _ => _)); eauto.
Qed.

Theorem step_keep o S c e g e' g' : (forall fuel, c <> OEvolve fuel) -> step o S c e g = Ok (e', g') -> Keep e e'.
Proof.
  intros NE H. destruct c; cbn [step] in H;
    try (rstep H; rinv H);
    try match goal with E : rmap fst _ = Ok _ |- _ =>
          let P := fresh in apply rmap_ok in E as ([? ?] & P & ->); cbn [fst] end.
  - eapply keep_add_location; eauto.
  - eapply keep_link_up; eauto.
  - eapply keep_still, still_set_attr; eauto.
  - eapply keep_eq, links_add_agent; eauto.
  - eapply keep_eq, links_append; eauto.
  - eapply (foldM_rel Keep) in E; [exact E|auto|eauto using keep_trans|].
    intros; eapply keep_eq, links_append; eauto.
  - unfold clear_locations in E. rstep E. rinv E.
    eapply keep_trans with v; [|now apply keep_eq].
    eapply (foldM_rel Keep) in E0; [exact E0|auto|eauto using keep_trans|].
    intros s a s' _ Hs. rstep Hs. rstep Hs; [|discriminate]. eapply keep_dec; eauto.
  - now contradiction (NE fuel).
  - destruct twoway; eapply keep_remove_1way; eauto.
  - destruct twoway; eapply keep_reopen_1way; eauto.
  - eapply (change_location_rel Keep); eauto using keep_trans, keep_close, keep_reopen.
  - eapply (change_location_rel Keep); eauto using keep_trans, keep_close, keep_reopen.
  - eapply (change_border_rel Keep); eauto using keep_trans, keep_close, keep_reopen.
  - eapply (change_border_rel Keep); eauto using keep_trans, keep_close, keep_reopen.
  - eapply keep_still, still_close_camp; eauto.
  - eapply keep_still, still_open_camp; eauto.
  - eapply keep_still, still_change_location_type; eauto.
  - eapply keep_still, still_set_forced; eauto.
  - rinv H. eapply keep_still, still_closures; eauto.
  - eapply (enact_rel Keep); eauto using keep_trans, keep_close, keep_reopen.
  - eapply keep_still, still_refresh; eauto.
  - eapply keep_still, still_add_conflict; eauto.
  - eapply keep_still, still_remove_conflict; eauto.
  - eapply keep_still, still_set_intensity; eauto.
  - unfold add_initial_refugees in H. rstep H; [rinv H; auto|]. do 4 rstep H.
    eapply (keep_spawns S dm _ (fun _ => _)); eauto.
  - unfold spawn_daily_displaced in E.
    rstep E; [|rstep E]; [rstep E; destruct v as [[? ?] ?]; rinv E; eapply keep_spawn_loop; eauto..|].
    rstep E. destruct v. rstep E. destruct v. cbv zeta in E.
    match type of E with (let (_, _) := ?x in _) = _ => destruct x end.
    rstep E. destruct v. rstep E. destruct v. rinv E.
    eapply keep_trans; [|eapply (keep_spawns S dm true (fun i => i)); eassumption].
    destruct (_ && _)%bool; auto. apply keep_still, still_reduce.
  - unfold read_agents in E. rstep E. destruct v as [[? ?] ?]. rinv E.
    eapply (foldM_rel (fun s s' => Keep (snd s) (snd s'))) in E0;
      [exact E0|auto|eauto using keep_trans|].
    intros [[f h] e1] r [[f2 h2] e2] _ H1. unfold read_agent_row in H1. cbn [snd] in *.
    rstep H1. rstep H1; [rinv H1; auto|]. rstep H1; [rinv H1; auto|]. do 3 rstep H1. rinv H1.
    match goal with E : foldM _ _ _ = Ok _ |- _ =>
      eapply (foldM_rel Keep) in E; [exact E|auto|eauto using keep_trans|] end.
    intros e3 i e4 _ H3. rstep H3. rstep H3; [eapply keep_eq, links_add_agent; eauto | rinv H3; auto].
  - eapply (store_input_rel Keep); [..|eassumption]; eauto using keep_trans.
    + intros; eapply keep_add_location; eauto.
    + intros; eapply keep_link_up; eauto.
  - eapply keep_still, still_update_attributes; eauto.
  - eapply keep_still, still_add_new_conflict_zones; eauto.
Qed.


(** ** The link log *)

Lemma link_rows_block S e t ki b : link_rows S e t ki = Ok b -> link_block S e t ki b.
Proof.
  unfold link_rows, link_of, loc_of; intro H. rstep H. apply of_option_ok in E. rstep H. apply of_option_ok in E0.
  rstep H. apply of_option_ok in E1. cbv zeta in H. injection H as <-.
  exists v, v0, v1. do 3 (split; [assumption|]). eexists. split; [reflexivity|].
  rewrite Z.leb_antisym. destruct (1 <? s_log_link S)%Z; reflexivity.
Qed.
Lemma forall2_imp {A B} (R R' : A -> B -> Prop) l l' : (forall a b, R a b -> R' a b) -> Forall2 R l l' -> Forall2 R' l l'.
Proof. intro H. induction 1; constructor; auto. Qed.

(** Blocks depend on the counters and names only. *)
Lemma block_map S t e e' ki b : map l_name (e_locations e') = map l_name (e_locations e) ->
  map l_region (e_locations e') = map l_region (e_locations e) -> e_links e' = e_links e ->
  link_block S e t ki b -> link_block S e' t ki b.
Proof.
  intros Ln Lr K (k & s & d & Hk & Hs & Hd & B).
  destruct (map_eq_nth l_name l_name (e_locations e') _ _ s Ln Hs) as (s' & Hs' & F1).
  destruct (map_eq_nth l_name l_name (e_locations e') _ _ d Ln Hd) as (d' & Hd' & F2).
  destruct (map_eq_nth l_region l_region (e_locations e') _ _ s Lr Hs) as (s2 & Hs2 & F3).
  destruct (map_eq_nth l_region l_region (e_locations e') _ _ d Lr Hd) as (d2 & Hd2 & F4).
  assert (s2 = s') as -> by congruence. assert (d2 = d') as -> by congruence.
  exists k, s', d'. rewrite K. do 3 (split; [assumption|]).
  assert (log_name S s' = log_name S s) as -> by (unfold log_name; rewrite F1, F3; reflexivity).
  assert (log_name S d' = log_name S d) as -> by (unfold log_name; rewrite F2, F4; reflexivity).
  exact B.
Qed.

Lemma out_evolve_agents S o e g e' g' : evolve_agents S o e g = Ok (e', g') -> e_links_out e' = e_links_out e /\ e_time e' = e_time e.
Proof. intro H. apply mov_evolve_agents in H as [M _ _]. rewrite M. auto. Qed.
Lemma out_finish_agents fuel S o e g e' g' : finish_agents fuel S o e g = Ok (e', g') -> e_links_out e' = e_links_out e /\ e_time e' = e_time e.
Proof. intro H. apply mov_finish_agents in H as [M _ _]. rewrite M. auto. Qed.

Theorem evolve_link_log fuel S o e g e' g' : evolve fuel S o e g = Ok (e', g') ->
  if (s_log_link S <=? 0)%Z then e_links_out e' = e_links_out e
  else exists bs, e_links_out e' = (if (e_time e =? 0)%Z then [] else e_links_out e) ++ List.concat bs /\
    Forall2 (link_block S e' (e_time e)) (flat_map l_links (e_locations e')) bs.
Proof.
  intro H. unfold evolve in H. rstep H. rename v into e0.
  assert (O0 : e_links_out e0 = e_links_out e /\ e_time e0 = e_time e) by (unfold refresh_spawn_weights in E; rinv E; auto).
  rstep H. destruct v as [e1 g1]. apply sc_update_scores in E0 as [C1 _]. destruct C1 as [C1 _].
  assert (O1 : e_links_out e1 = e_links_out e0 /\ e_time e1 = e_time e0) by (rewrite C1; auto).
  rstep H. destruct v as [e2 g2]. apply out_evolve_agents in E0. rstep H. destruct v as [e3 g3]. apply out_finish_agents in E1.
  assert (O3 : e_links_out e3 = e_links_out e /\ e_time e3 = e_time e) by (destruct O0, O1, E0, E1; split; congruence).
  clear E0 E1 O0 O1 E C1 e0 e1 e2 g1 g2.
  rstep H. rename v into e4.
  assert (X4 : e_links_out e4 = e_links_out e /\ e_time e4 = e_time e /\ e_locations e4 = e_locations e3 /\ e_links e4 = e_links e3).
  { destruct O3 as [<- <-]. unfold write_agents in E; rinv E; auto. }
  destruct X4 as (O4 & T4 & L4 & K4). clear E O3.
  rstep H. rename v into e5.
  assert (X5 : e_locations e5 = e_locations e4 /\ e_links e5 = e_links e4 /\ e_time e5 = e_time e4 /\
    if (s_log_link S <=? 0)%Z then e_links_out e5 = e_links_out e4
    else exists bs, e_links_out e5 = (if (e_time e4 =? 0)%Z then [] else e_links_out e4) ++ List.concat bs /\
      Forall2 (link_block S e4 (e_time e4)) (flat_map l_links (e_locations e4)) bs).
  { rewrite Z.leb_antisym. destruct (0 <? s_log_link S)%Z; cbn [negb]; [|injection E as <-; auto].
    unfold write_links in E. rstep E. injection E as <-. do 3 (split; [reflexivity|]). exists v. split; [reflexivity|].
    apply mapM_Forall2 in E0. eapply forall2_imp; [|exact E0]. intros ki b Hb. now apply link_rows_block. }
  destruct X5 as (L5 & K5 & T5 & X5). clear E.
  rstep H. rename v into e6. unfold update_recent in E. rstep E. rename v into ag. injection E as <-.
  cbv zeta in H. rstep H. destruct v as [e8 g4]. injection H as <- <-.
  set (e7 := aggregate_arrivals S (up_e_agents (fun _ => ag) e5)) in *.
  assert (X7 : e_links_out e7 = e_links_out e5 /\ e_links e7 = e_links e5 /\ map l_name (e_locations e7) = map l_name (e_locations e5) /\
     map l_region (e_locations e7) = map l_region (e_locations e5) /\ map l_links (e_locations e7) = map l_links (e_locations e5)).
  { unfold e7, aggregate_arrivals. destruct (0 <? s_log_camp S)%Z; [|auto]. cbn [up_e_num_arrivals up_e_travel_durations up_e_agents up_e_locations e_links_out e_links e_locations].
    repeat split; rewrite map_map; apply map_ext; intro l; destruct (l_camp l); reflexivity. }
  clearbody e7. destruct X7 as (O7 & K7 & N7 & R7 & Lk7).
  assert (O8 : e_links_out e8 = e_links_out e7).
  { unfold deactivate in E. destruct (s_camps_are_sinks S); [|rinv E; auto].
    eapply (foldM_rel (fun s s' => e_links_out (fst s') = e_links_out (fst s))) in E; [exact E|auto|congruence|].
    intros [ea ga] ai [eb gb] _ Hs. cbn [fst]. rstep Hs. rstep Hs; [rinv Hs; auto|].
    rstep Hs; try discriminate; [|rinv Hs; auto]. rstep Hs. rstep Hs; [|rinv Hs; auto].
    destruct (rng_u ga). do 2 rstep Hs. rstep Hs; rinv Hs; auto. }
  pose proof (deactivate_spec _ _ _ _ _ E) as (_ & L8 & K8 & _ & _ & _ & _).
  cbn [up_e_time e_links_out]. rewrite O8, O7.
  destruct (s_log_link S <=? 0)%Z; [congruence|]. destruct X5 as (bs & B1 & B2). exists bs.
  split; [rewrite B1, T4, O4; reflexivity|]. rewrite <- T4.
  assert (Lk : flat_map l_links (e_locations (up_e_time (fun t => t + 1)%Z e8)) = flat_map l_links (e_locations e4)).
  { cbn [up_e_time e_locations]. rewrite !flat_map_concat_map. congruence. }
  rewrite Lk. eapply forall2_imp; [|exact B2]. intros ki b Hb.
  eapply block_map; [..|exact Hb]; cbn [up_e_time e_locations e_links]; congruence.
Qed.

Theorem traffic_spec : forall o fuel S e g e' g', reachable o e g -> evolve fuel S o e g = Ok (e', g') ->
  exists entered,
    (forall n a, nth_error (e_agents e) n = Some a -> exists a' p', nth_error (e_agents e') n = Some a' /\
       journey e (a_location a) (entered n) p' /\
       (a_location a' = p' \/ exists i, p' = PLoc i /\ a_location a' = PGone i)) /\
    forall ki k, nth_error (e_links e) ki = Some k -> exists k', nth_error (e_links e') ki = Some k' /\
      k_cumNumAgents k' = (k_cumNumAgents k + traffic e (fun _ => true) entered ki)%Z /\
      (proper_attributes e -> forall s v, counted k' s v =
        (counted k s v + if (1 <? s_log_link S)%Z then traffic e (has_value s v) entered ki else 0)%Z).
Proof. intros o fuel S e g e' g' R H. eapply evolve_traffic; [eapply reachable_inv; eauto|exact H]. Qed.

Theorem other_calls o S c e g e' g' : (forall fuel, c <> OEvolve fuel) -> step o S c e g = Ok (e', g') ->
  forall ki k, nth_error (e_links e) ki = Some k -> exists k', nth_error (e_links e') ki = Some k' /\
    k_cumNumAgents k' = k_cumNumAgents k /\ k_cumByAttribute k' = k_cumByAttribute k.
Proof.
  intros NE H ki k K. destruct (step_keep _ _ _ _ _ _ _ NE H ki k K) as (k' & K' & F). injection F as F1 F2. eauto.
Qed.
