(** * Traffic: links keep their ends and length, and their cumulative counters grow *)

From Coq Require Import Lia.
From Verif Require Import Base State Moving Crawling Scoring Diagnostics Flee DataTable
  Spawning InputGeography Api SpecAgents Lemmas Inv InvMoves InvStruct Frames.

Definition kkeep (k k' : link) : Prop :=
  k_startpoint k' = k_startpoint k /\ k_endpoint k' = k_endpoint k /\
  k_distance k' = k_distance k /\ (k_cumNumAgents k <= k_cumNumAgents k')%Z.

Definition Grow (e e' : eco) : Prop :=
  forall ki k, nth_error (e_links e) ki = Some k ->
    exists k', nth_error (e_links e') ki = Some k' /\ kkeep k k'.

Lemma kkeep_refl k : kkeep k k.
Proof. unfold kkeep; repeat split; lia. Qed.
Lemma grow_refl e : Grow e e.
Proof. intros ki k H; exists k; split; [assumption|apply kkeep_refl]. Qed.
Lemma grow_trans a b c : Grow a b -> Grow b c -> Grow a c.
Proof.
  intros H1 H2 ki k H. destruct (H1 ki k H) as (k1 & K1 & A1 & A2 & A3 & A4).
  destruct (H2 ki k1 K1) as (k2 & K2 & B1 & B2 & B3 & B4).
  exists k2; split; [assumption|]. repeat split; try congruence; lia.
Qed.
Lemma grow_same e e' : Same e e' -> map k_distance (e_links e') = map k_distance (e_links e) ->
  Grow e e'.
Proof.
  intros S D ki k H.
  destruct (map_eq_nth kstruct kstruct (e_links e') _ ki k (ss_links _ _ (s_struct _ _ S)) H) as (k' & K & F).
  destruct (map_eq_nth k_distance k_distance (e_links e') _ ki k D H) as (k2 & K2 & F2).
  destruct (map_eq_nth k_cumNumAgents k_cumNumAgents (e_links e') _ ki k (s_cums _ _ S) H) as (k3 & K3 & F3).
  assert (k2 = k') as -> by congruence. assert (k3 = k') as -> by congruence.
  injection F as F4 F5 F6 F7. exists k'. split; [assumption|]. repeat split; try assumption; lia.
Qed.
Lemma grow_still e e' : Still e e' -> Grow e e'.
Proof. intros [S _ _ D]; now apply grow_same. Qed.
Lemma grow_eq e e' : e_links e' = e_links e -> Grow e e'.
Proof. intros H ki k K. exists k. rewrite H. split; [assumption|apply kkeep_refl]. Qed.
Lemma grow_app e e' l : e_links e' = e_links e ++ l -> Grow e e'.
Proof.
  intros H ki k K. exists k. rewrite H, nth_error_app1 by now apply nth_error_lt in K.
  split; [assumption|apply kkeep_refl].
Qed.
Lemma grow_upd e e' n f : e_links e' = upd n f (e_links e) ->
  (forall k, nth_error (e_links e) n = Some k -> kkeep k (f k)) -> Grow e e'.
Proof.
  intros H Hf ki k K. rewrite H, nth_upd, K. destruct (Nat.eqb_spec n ki) as [->|].
  - eexists; split; [reflexivity|auto].
  - eexists; split; [reflexivity|apply kkeep_refl].
Qed.
#[export] Hint Resolve grow_refl grow_still : core.

Lemma grow_dec p e e' : dec_at p e = Ok e' -> Grow e e'.
Proof.
  unfold dec_at; intro H; destruct p; rinv H; try discriminate; [now apply grow_eq|].
  eapply grow_upd; [reflexivity|]. intros k0 _. unfold link_dec, kkeep; destruct (e_par e); cbn; repeat split; lia.
Qed.
Lemma grow_inc S attrs p e e' : inc_at S attrs p e = Ok e' -> Grow e e'.
Proof.
  unfold inc_at; intro H; destruct p; rinv H; try discriminate; [now apply grow_eq|].
  eapply grow_upd; [reflexivity|]. intros k0 Hk. apply of_option_ok in E. rewrite E in Hk.
  injection Hk as <-. apply link_inc_spec in E0 as (K1 & _ & K3 & K4). injection K1 as A B _ _.
  repeat split; try assumption; lia.
Qed.
Lemma grow_handle_travel S ai p tr e e' : handle_travel S ai p tr e = Ok e' -> Grow e e'.
Proof.
  unfold handle_travel; intro H. rstep H. rstep H. cbv zeta in H. rstep H. rinv H.
  eapply grow_trans; [eapply grow_dec; eassumption|].
  eapply grow_trans; [|eapply grow_trans; [eapply grow_inc; eassumption|]]; now apply grow_eq.
Qed.
Lemma grow_person_evolve S o t f ai e g e' g' :
  person_evolve S o t f ai e g = Ok (e', g') -> Grow e e'.
Proof.
  intros H. apply person_evolve_spec in H as [->|(a & i & l & rest & _ & _ & _ & _ & H)]; auto.
  destruct H as [->|(ki & _ & H)].
  - now apply grow_eq.
  - eapply grow_trans; [|eapply grow_handle_travel; exact H]. now apply grow_eq.
Qed.
Lemma grow_finish_travel fuel S o t ai e g e' g' :
  finish_travel fuel S o t ai e g = Ok (e', g') -> Grow e e'.
Proof.
  revert e g; induction fuel as [|fuel IH]; intros e g H; cbn [finish_travel] in H;
    unfold agent_of in H; rstep H; apply of_option_ok in E; (rstep H; [rinv H; auto|]);
    [discriminate|].
  rstep H; try discriminate. rstep H. rstep H. destruct v1 as [speed g1]. cbv zeta in H.
  rstep H; [|rinv H; now apply grow_eq].
  rstep H.
  - rstep H. rinv H. eapply grow_trans; [|eapply grow_handle_travel; eassumption].
    now apply grow_eq.
  - rstep H.
    assert (I3 : Grow e v1).
    { eapply grow_trans; [|eapply grow_handle_travel; eassumption].
      match goal with |- context [if ?b then _ else _] => destruct b end; now apply grow_eq. }
    rstep H.
    match type of H with context [if ?b then up_loc ?i ?f v1 else v1] =>
      assert (I4 : Grow e (if b then up_loc i f v1 else v1)) by
        (destruct b; [apply (grow_trans _ _ _ I3); now apply grow_eq|exact I3]) end.
    match type of H with (if ?b then _ else _) = _ => destruct b end.
    + rstep H. rstep H. destruct v4 as [e6 g2]. eapply grow_trans; [|eapply IH; exact H].
      eapply grow_trans; [exact I4|]. eapply grow_person_evolve; eassumption.
    + rinv H. exact I4.
Qed.

Lemma grow_foldM2 {A B} (f : eco * B -> A -> res (eco * B)) l e g e' g' :
  (forall e g a e' g', f (e, g) a = Ok (e', g') -> Grow e e') ->
  foldM f l (e, g) = Ok (e', g') -> Grow e e'.
Proof.
  intros Hf H. eapply (foldM_rel (fun s s' => Grow (fst s) (fst s'))) in H;
    [exact H|auto|eauto using grow_trans|]. intros [] a [] _ Hs. eapply Hf; exact Hs.
Qed.

Lemma grow_deactivate S e g e' g' : deactivate S e g = Ok (e', g') -> Grow e e'.
Proof. intro H. apply deactivate_spec in H as (_ & _ & H & _). now apply grow_eq. Qed.

Lemma grow_evolve fuel S o e g e' g' : evolve fuel S o e g = Ok (e', g') -> Grow e e'.
Proof.
  unfold evolve; intros H.
  rstep H. rstep H. destruct v0 as [e1 g1]. rstep H. destruct v0 as [e2 g2].
  rstep H. destruct v0 as [e3 g3]. rename H into H3. rstep H3. rename v0 into e4.
  rstep H3. rename v0 into e5. rstep H3. rename v0 into e6. cbv zeta in H3. rstep H3.
  destruct v0 as [e8 g8]. rinv H3.
  eapply grow_trans; [eapply grow_still, still_refresh; eassumption|].
  eapply grow_trans; [eapply grow_still, still_update_scores; eassumption|].
  eapply grow_trans.
  { unfold evolve_agents in E1. eapply grow_foldM2; [|exact E1].
    clear. intros e g ai e' g' H. cbv zeta beta iota in H. rstep H.
    eapply grow_trans with (if (1 <? s_log_agent S)%Z
                    then up_agent ai (up_a_locations_visited (fun _ => [])) e else e).
    { destruct (1 <? s_log_agent S)%Z; auto. now apply grow_eq. }
    rstep H; [eapply grow_person_evolve; eauto.. | rinv H; auto]. }
  eapply grow_trans.
  { unfold finish_agents in E2. eapply grow_foldM2; [|exact E2].
    clear. intros e g ai e' g' H. cbv beta iota in H. rstep H.
    rstep H; [rstep H; destruct v0; rinv H.. | rinv H; auto];
      (eapply grow_trans; [eapply grow_finish_travel; eassumption|now apply grow_eq]). }
  eapply grow_trans with e4; [rinv E3; auto; eapply grow_still, still_write_agents; eauto|].
  eapply grow_trans with e5; [rinv E4; auto; eapply grow_still, still_write_links; eauto|].
  eapply grow_trans with e6; [unfold update_recent in E5; rinv E5; now apply grow_eq|].
  eapply grow_trans with (aggregate_arrivals S e6).
  { unfold aggregate_arrivals. destruct (0 <? s_log_camp S)%Z; auto. now apply grow_eq. }
  eapply grow_trans; [eapply grow_deactivate; eassumption|]. now apply grow_eq.
Qed.

Lemma grow_add_location S o n r x y lt mc cap pop f c at_ e g e' g' :
  add_location S o n r x y lt mc cap pop f c at_ e g = Ok (e', g') -> Grow e e'.
Proof.
  unfold add_location; intro H.
  rstep H. rstep H. cbv zeta in H. do 2 rstep H. destruct v1. rstep H. rinv H.
  assert (Q0 : Grow e a) by (destruct at_; inversion Heqp; subst; auto using grow_eq).
  eapply grow_trans; [exact Q0|]. eapply grow_trans; [|eapply grow_still, still_refresh; eauto].
  assert (Q1 : Grow a e0).
  { eapply grow_trans; [|eapply grow_still, still_updateLocationScore; eauto]. now apply grow_eq. }
  eapply grow_trans; [exact Q1|now apply grow_eq].
Qed.
Lemma grow_link_up n1 n2 d f at_ e e' : link_up n1 n2 d f at_ e = Ok e' -> Grow e e'.
Proof.
  intro H. apply link_up_spec in H as (i1 & i2 & e0 & did & _ & _ & _ & _ & C & ->).
  destruct C as [(-> & -> & ->)|(a & -> & -> & ->)]; unfold kapp; cbn; 
  eapply grow_app; cbn; rewrite <- app_assoc; reflexivity.
Qed.
Lemma grow_remove_1way s t co e e' b : remove_link_1way s t co e = Ok (e', b) -> Grow e e'.
Proof.
  unfold remove_link_1way; intro H. rstep H. rstep H. destruct v0 as [[e1 l] r]. rinv H.
  apply grow_trans with e1; [|now apply grow_eq].
  eapply (foldM_rel (fun s s' => Grow (fst (fst s)) (fst (fst s')))) in E0;
    [exact E0|auto|eauto using grow_trans|].
  intros [[e2 l2] r2] ki [[e3 l3] r3] _ Hs. unfold remove_step in Hs. cbn [fst].
  rinv Hs; auto.
  match goal with |- Grow _ (up_loc ?i ?f (up_e_links ?h ?x)) =>
    apply grow_trans with x; [|eapply grow_app; reflexivity] end.
  eapply grow_upd; [reflexivity|]. intros; unfold kkeep; cbn; repeat split; lia.
Qed.
Lemma grow_reopen_1way s t e e' b : reopen_link_1way s t e = Ok (e', b) -> Grow e e'.
Proof.
  unfold reopen_link_1way; intro H. rstep H. rstep H. destruct v0 as [[e1 l] r]. rinv H.
  apply grow_trans with e1; [|now apply grow_eq].
  eapply (foldM_rel (fun s s' => Grow (fst (fst s)) (fst (fst s')))) in E0;
    [exact E0|auto|eauto using grow_trans|].
  intros [[e2 l2] r2] ki [[e3 l3] r3] _ Hs. unfold reopen_step in Hs. cbn [fst].
  rinv Hs; auto. eapply grow_upd; [reflexivity|]. intros; unfold kkeep; cbn; repeat split; lia.
Qed.
Lemma grow_close s t e e' b : close_link s t false e = Ok (e', b) -> Grow e e'.
Proof. apply grow_remove_1way. Qed.
Lemma grow_reopen s t e e' b : reopen_link s t false e = Ok (e', b) -> Grow e e'.
Proof. apply grow_reopen_1way. Qed.

Lemma links_append i at_ e e' : append_agent i at_ e = Ok e' -> e_links e' = e_links e.
Proof. unfold append_agent; intro H; now rinv H. Qed.
Lemma links_add_agent S i at_ e e' : add_agent S i at_ e = Ok e' -> e_links e' = e_links e.
Proof.
  unfold add_agent; intro H; rstep H. cbv zeta in H. apply links_append in H. rewrite H.
  destruct (s_TakeFromPopulation S); reflexivity.
Qed.
Lemma links_spawn_one S dm t i e g e' g' :
  spawn_one S dm t i (e, g) = Ok (e', g') -> e_links e' = e_links e.
Proof.
  unfold spawn_one; intros H. do 2 rstep H. destruct v0. rstep H. rinv H.
  destruct t; [eapply links_add_agent | eapply links_append]; eauto.
Qed.
Lemma grow_spawns {A} S dm t (f : A -> nat) l e g e' g' :
  foldM (fun st a => spawn_one S dm t (f a) st) l (e, g) = Ok (e', g') -> Grow e e'.
Proof.
  apply grow_foldM2. intros; eapply grow_eq, links_spawn_one; eauto.
Qed.
Lemma grow_spawn_loop S dm num e g n e' g' :
  spawn_loop S dm num e g = Ok (n, e', g') -> Grow e e'.
Proof.
  unfold spawn_loop; intros H.
  eapply (foldM_rel (fun s s' => Grow (snd (fst s)) (snd (fst s')))) in H;
    [exact H|auto|eauto using grow_trans|].
  intros [[t1 e1] g1] i [[t2 e2] g2] _ H1. cbn [fst snd] in *. do 2 rstep H1. destruct v0.
  rstep H1. destruct v0. rinv H1. eapply (grow_spawns S dm _ (fun _ => _)); eauto.
Qed.

Theorem step_grow o S c e g e' g' : step o S c e g = Ok (e', g') -> Grow e e'.
Proof.
  intros H. destruct c; cbn [step] in H;
    try (rstep H; rinv H);
    try match goal with E : rmap fst _ = Ok _ |- _ =>
          let P := fresh in apply rmap_ok in E as ([? ?] & P & ->); cbn [fst] end.
  - eapply grow_add_location; eauto.
  - eapply grow_link_up; eauto.
  - eapply grow_still, still_set_attr; eauto.
  - eapply grow_eq, links_add_agent; eauto.
  - eapply grow_eq, links_append; eauto.
  - eapply (foldM_rel Grow) in E; [exact E|auto|eauto using grow_trans|].
    intros; eapply grow_eq, links_append; eauto.
  - unfold clear_locations in E. rstep E. rinv E.
    eapply grow_trans with v; [|now apply grow_eq].
    eapply (foldM_rel Grow) in E0; [exact E0|auto|eauto using grow_trans|].
    intros s a s' _ Hs. rstep Hs. rstep Hs; [|discriminate]. eapply grow_dec; eauto.
  - eapply grow_evolve; eauto.
  - destruct twoway; eapply grow_remove_1way; eauto.
  - destruct twoway; eapply grow_reopen_1way; eauto.
  - eapply (change_location_rel Grow); eauto using grow_trans, grow_close, grow_reopen.
  - eapply (change_location_rel Grow); eauto using grow_trans, grow_close, grow_reopen.
  - eapply (change_border_rel Grow); eauto using grow_trans, grow_close, grow_reopen.
  - eapply (change_border_rel Grow); eauto using grow_trans, grow_close, grow_reopen.
  - eapply grow_still, still_close_camp; eauto.
  - eapply grow_still, still_open_camp; eauto.
  - eapply grow_still, still_change_location_type; eauto.
  - eapply grow_still, still_set_forced; eauto.
  - rinv H. eapply grow_still, still_closures; eauto.
  - eapply (enact_rel Grow); eauto using grow_trans, grow_close, grow_reopen.
  - eapply grow_still, still_refresh; eauto.
  - eapply grow_still, still_add_conflict; eauto.
  - eapply grow_still, still_remove_conflict; eauto.
  - eapply grow_still, still_set_intensity; eauto.
  - unfold add_initial_refugees in H. rstep H; [rinv H; auto|]. do 4 rstep H.
    eapply (grow_spawns S dm _ (fun _ => _)); eauto.
  - unfold spawn_daily_displaced in E.
    rstep E; [|rstep E]; [rstep E; destruct v as [[? ?] ?]; rinv E; eapply grow_spawn_loop; eauto..|].
    rstep E. destruct v. rstep E. destruct v. cbv zeta in E.
    match type of E with (let (_, _) := ?x in _) = _ => destruct x end.
    rstep E. destruct v. rstep E. destruct v. rinv E.
    eapply grow_trans; [|eapply (grow_spawns S dm true (fun i => i)); eassumption].
    destruct (_ && _)%bool; auto. apply grow_still, still_reduce.
  - unfold read_agents in E. rstep E. destruct v as [[? ?] ?]. rinv E.
    eapply (foldM_rel (fun s s' => Grow (snd s) (snd s'))) in E0;
      [exact E0|auto|eauto using grow_trans|].
    intros [[f h] e1] r [[f2 h2] e2] _ H1. unfold read_agent_row in H1. cbn [snd] in *.
    rstep H1. rstep H1; [rinv H1; auto|]. rstep H1; [rinv H1; auto|]. do 3 rstep H1. rinv H1.
    match goal with E : foldM _ _ _ = Ok _ |- _ =>
      eapply (foldM_rel Grow) in E; [exact E|auto|eauto using grow_trans|] end.
    intros e3 i e4 _ H3. rstep H3. rstep H3; [eapply grow_eq, links_add_agent; eauto | rinv H3; auto].
  - eapply (store_input_rel Grow); [..|eassumption]; eauto using grow_trans.
    + intros; eapply grow_add_location; eauto.
    + intros; eapply grow_link_up; eauto.
  - eapply grow_still, still_update_attributes; eauto.
  - eapply grow_still, still_add_new_conflict_zones; eauto.
Qed.

Lemma run_grow o h e g e' g' : run o h e g = Ok (e', g') -> Grow e e'.
Proof.
  unfold run; intro H. eapply grow_foldM2; [|exact H]. clear. intros ? ? ? ? ? Hs; eapply step_grow; exact Hs.
Qed.
