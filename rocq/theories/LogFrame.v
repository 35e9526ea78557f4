(** * LogFrame: only a time step writes to the logs *)

From Coq Require Import Lia.
From Verif Require Import Base State Moving Crawling Scoring Diagnostics Flee DataTable
  Spawning InputGeography Api SpecAgents SpecHistory Lemmas Inv InvMoves InvStruct Frames ScoreFrames.
Local Open Scope list_scope.

Definition Logs (e e' : eco) : Prop := e_agents_out e' = e_agents_out e /\ e_links_out e' = e_links_out e.
Lemma logs_refl e : Logs e e. Proof. split; reflexivity. Qed.
Lemma logs_trans a b c : Logs a b -> Logs b c -> Logs a c.
Proof. intros [A B] [C D]; split; congruence. Qed.
#[export] Hint Resolve logs_refl : core.
Ltac same := split; reflexivity.
Lemma logs_sc e e' : Sc e e' -> Logs e e'.
Proof. intros [A _]. rewrite A. same. Qed.
Lemma logs_foldM {A} (f : eco -> A -> res eco) l e e' :
  (forall e1 a e2, f e1 a = Ok e2 -> Logs e1 e2) -> foldM f l e = Ok e' -> Logs e e'.
Proof. intros F H. eapply (foldM_rel Logs) in H; [exact H|auto|exact logs_trans|]. intros; eauto. Qed.

Lemma logs_refresh S e e' : refresh_spawn_weights S e = Ok e' -> Logs e e'.
Proof. unfold refresh_spawn_weights; intro H; rinv H. same. Qed.
Lemma logs_on_named n f e e' : on_named_loc n f e = Ok e' -> Logs e e'.
Proof. unfold on_named_loc; intro H; rinv H. same. Qed.
Lemma logs_close_camp S n i e e' : close_camp S n i e = Ok e' -> Logs e e'.
Proof. apply logs_on_named. Qed.
Lemma logs_open_camp S n i e e' : open_camp S n i e = Ok e' -> Logs e e'.
Proof. apply logs_on_named. Qed.
Lemma logs_change_type S n t e e' : change_location_type S n t e = Ok e' -> Logs e e'.
Proof.
  unfold change_location_type; cbv zeta; intro H.
  repeat match type of H with (if ?b then _ else _) = _ => destruct b end;
    try (eapply logs_on_named; exact H);
    (apply bind_ok in H as (? & _ & H); discriminate).
Qed.
Lemma logs_forced n m v e e' : set_forced_redirection n m v e = Ok e' -> Logs e e'.
Proof.
  unfold set_forced_redirection; intro H. rstep H. eapply logs_foldM; [|exact H]; cbv beta iota.
  intros e1 k e2 H1. do 2 rstep H1. destruct (String.eqb _ _); injection H1 as <-; auto. same.
Qed.
Lemma logs_add_conflict S n q c e e' : add_conflict_zone S n q c e = Ok e' -> Logs e e'.
Proof.
  unfold add_conflict_zone; intro H. destruct (first_index _ _ _); [|injection H as <-; auto].
  rstep H. eapply logs_trans; [|eapply logs_refresh; exact H]. same.
Qed.
Lemma logs_remove_conflict S n c e e' : remove_conflict_zone S n c e = Ok e' -> Logs e e'.
Proof.
  unfold remove_conflict_zone; intro H. rstep H. eapply logs_trans; [|eapply logs_refresh; exact H].
  eapply logs_foldM; [|exact E]; cbv beta iota. intros e1 i e2 H1. rstep H1. destruct (String.eqb _ _); [|injection H1 as <-; auto].
  rstep H1. injection H1 as <-. same.
Qed.
Lemma logs_set_intensity S n q c e e' : set_conflict_intensity S n q c e = Ok e' -> Logs e e'.
Proof. unfold set_conflict_intensity. destruct (Qltb _ _); [apply logs_remove_conflict|apply logs_add_conflict]. Qed.
Lemma logs_set_attr i k v e e' : set_loc_attribute i k v e = Ok e' -> Logs e e'.
Proof. unfold set_loc_attribute; intro H. do 2 rstep H. injection H as <-. same. Qed.
Lemma logs_update_attributes ig a t e e' : update_attributes ig a t e = Ok e' -> Logs e e'.
Proof.
  unfold update_attributes; intro H. rstep H. eapply logs_foldM; [|exact H]; cbv beta iota.
  intros e1 x e2 H1. do 2 rstep H1. eapply logs_set_attr; eauto.
Qed.
Lemma logs_add_new_conflict_zones S f ig t e e' :
  add_new_conflict_zones S f ig t e = Ok e' -> Logs e e'.
Proof.
  unfold add_new_conflict_zones; intro H; do 2 rstep H.
  assert (S1 : Logs e v0).
  { unfold apply_changes in E0. eapply logs_foldM; [|exact E0]; cbv beta iota.
    intros s c s' Hs. do 2 rstep Hs. rstep Hs; [|rinv Hs; auto]. do 2 rstep Hs.
    eapply logs_change_type; eauto. }
  eapply logs_trans; [exact S1|]. rstep H; [|rstep H].
  - rstep H. rstep H.
    + eapply logs_trans; eapply logs_update_attributes; eauto.
    + rinv H. eapply logs_update_attributes; eauto.
  - eapply logs_foldM; [|exact H]; cbv beta iota.
    intros s [n vs] s' Hs. unfold conflict_step in Hs.
    rstep Hs; [discriminate|]. do 2 rstep Hs.
    assert (S2 : Logs s v2).
    { rinv E2; auto; first [eapply logs_set_intensity; eassumption | eapply logs_add_conflict; eassumption]. }
    eapply logs_trans; [exact S2|].
    rinv Hs; auto. eapply logs_set_intensity; eauto.
  - unfold conflicts_from_locations in H. eapply logs_foldM; [|exact H]; cbv beta iota.
    intros s l s' Hs. rstep Hs. rstep Hs; [|rinv Hs; auto]. do 2 rstep Hs.
    rstep Hs; [|rinv Hs; auto]. do 3 rstep Hs. eapply logs_add_conflict; eauto.
Qed.

Lemma logs_add_location S o n r x y lt mc cap pop f c at_ e g e' g' :
  add_location S o n r x y lt mc cap pop f c at_ e g = Ok (e', g') -> Logs e e'.
Proof.
  unfold add_location; intro H.
  rstep H. rstep H. cbv zeta in H. do 2 rstep H. destruct v1. rstep H. rinv H.
  assert (Q0 : Logs e a) by (destruct at_; inversion Heqp; subst; [same|auto]).
  eapply logs_trans; [exact Q0|]. eapply logs_trans; [|eapply logs_refresh; eauto].
  match goal with U : updateLocationScore _ _ _ _ _ _ = Ok _ |- _ => apply sc_updateLocationScore in U as [U _]; apply logs_sc in U; exact U end.
Qed.
Lemma logs_link_up n1 n2 d f at_ e e' : link_up n1 n2 d f at_ e = Ok e' -> Logs e e'.
Proof.
  intro H. apply link_up_spec in H as (i1 & i2 & e0 & did & _ & _ & _ & _ & C & ->).
  destruct C as [(-> & -> & ->)|(a & -> & -> & ->)]; same.
Qed.
Lemma logs_remove_1way s t co e e' b : remove_link_1way s t co e = Ok (e', b) -> Logs e e'.
Proof.
  unfold remove_link_1way; intro H. rstep H. rstep H. destruct v0 as [[e1 l] r]. rinv H.
  apply logs_trans with e1; [|same].
  eapply (foldM_rel (fun s s' => Logs (fst (fst s)) (fst (fst s')))) in E0;
    [exact E0|auto|eauto using logs_trans|].
  intros [[e2 l2] r2] ki [[e3 l3] r3] _ Hs. unfold remove_step in Hs. cbn [fst].
  rinv Hs; auto. same.
Qed.
Lemma logs_reopen_1way s t e e' b : reopen_link_1way s t e = Ok (e', b) -> Logs e e'.
Proof.
  unfold reopen_link_1way; intro H. rstep H. rstep H. destruct v0 as [[e1 l] r]. rinv H.
  apply logs_trans with e1; [|same].
  eapply (foldM_rel (fun s s' => Logs (fst (fst s)) (fst (fst s')))) in E0;
    [exact E0|auto|eauto using logs_trans|].
  intros [[e2 l2] r2] ki [[e3 l3] r3] _ Hs. unfold reopen_step in Hs. cbn [fst].
  rinv Hs; auto. same.
Qed.
Lemma logs_close s t e e' b : close_link s t false e = Ok (e', b) -> Logs e e'.
Proof. apply logs_remove_1way. Qed.
Lemma logs_reopen s t e e' b : reopen_link s t false e = Ok (e', b) -> Logs e e'.
Proof. apply logs_reopen_1way. Qed.

Lemma logs_append i at_ e e' : append_agent i at_ e = Ok e' -> Logs e e'.
Proof. unfold append_agent; intro H; rinv H. same. Qed.
Lemma logs_add_agent S i at_ e e' : add_agent S i at_ e = Ok e' -> Logs e e'.
Proof.
  unfold add_agent; intro H; rstep H. cbv zeta in H.
  eapply logs_trans; [|eapply logs_append; exact H].
  destruct (s_TakeFromPopulation S); auto. same.
Qed.
Lemma logs_spawn_one S dm t i e g e' g' :
  spawn_one S dm t i (e, g) = Ok (e', g') -> Logs e e'.
Proof.
  unfold spawn_one; intros H. do 2 rstep H. destruct v0. rstep H. rinv H.
  destruct t; [eapply logs_add_agent | eapply logs_append]; eauto.
Qed.
Lemma logs_spawns {A} S dm t (f : A -> nat) l e g e' g' :
  foldM (fun st a => spawn_one S dm t (f a) st) l (e, g) = Ok (e', g') -> Logs e e'.
Proof.
  intro H. eapply (foldM_rel (fun s s' => Logs (fst s) (fst s'))) in H;
    [exact H|auto|eauto using logs_trans|].
  intros [e1 g1] i [e2 g2] _ Hs. eapply logs_spawn_one; exact Hs.
Qed.
Lemma logs_spawn_n S dm t i n e g e' g' :
  spawn_n S dm t i n (e, g) = Ok (e', g') -> Logs e e'.
Proof. intro H. eapply (logs_spawns S dm t (fun _ => i)). exact H. Qed.
Lemma logs_initial S dm d i e g e' g' :
  add_initial_refugees S dm d i e g = Ok (e', g') -> Logs e e'.
Proof.
  unfold add_initial_refugees; intros H. rstep H; [rinv H; auto|]. do 4 rstep H.
  eapply logs_spawn_n; eauto.
Qed.
Lemma logs_spawn_loop S dm num e g n e' g' :
  spawn_loop S dm num e g = Ok (n, e', g') -> Logs e e'.
Proof.
  unfold spawn_loop; intros H.
  eapply (foldM_rel (fun s s' => Logs (snd (fst s)) (snd (fst s')))) in H;
    [exact H|auto|eauto using logs_trans|].
  intros [[t1 e1] g1] i [[t2 e2] g2] _ H1. cbn [fst snd] in *. do 2 rstep H1. destruct v0.
  rstep H1. destruct v0. rinv H1. eapply logs_spawn_n; eauto.
Qed.
Lemma logs_spawn_daily S dm t sp d e g n sp' d' e' g' :
  spawn_daily_displaced S dm t sp d e g = Ok (n, sp', d', e', g') -> Logs e e'.
Proof.
  unfold spawn_daily_displaced; intros H.
  rstep H; [|rstep H]; [rstep H; destruct v as [[? ?] ?]; rinv H; eapply logs_spawn_loop; eauto..|].
  rstep H. destruct v. rstep H. destruct v. cbv zeta in H.
  match type of H with (let (_, _) := ?x in _) = _ => destruct x end.
  rstep H. destruct v. rstep H. destruct v. rinv H.
  eapply logs_trans; [|eapply (logs_spawns S dm true (fun i => i)); exact E2].
  destruct (_ && _)%bool; auto. same.
Qed.
Lemma logs_read_agents S rows e e' : read_agents S rows e = Ok e' -> Logs e e'.
Proof.
  unfold read_agents; intros H. rstep H. destruct v as [[? ?] ?]. rinv H.
  eapply (foldM_rel (fun s s' => Logs (snd s) (snd s'))) in E;
    [exact E|auto|eauto using logs_trans|].
  intros [[f h] e1] r [[f2 h2] e2] _ H1. unfold read_agent_row in H1. cbn [snd] in *.
  rstep H1. rstep H1; [rinv H1; auto|]. rstep H1; [rinv H1; auto|]. do 3 rstep H1. rinv H1.
  match goal with E : foldM _ _ _ = Ok _ |- _ => eapply logs_foldM in E; [exact E|] end.
  intros e3 i e4 H3. rstep H3. rstep H3; [eapply logs_add_agent; eauto | rinv H3; auto].
Qed.

Lemma logs_enact_one fuel S t tw c e e' : enact_one fuel S t tw e c = Ok e' -> Logs e e'.
Proof.
  assert (C2 : forall s t tw e e' b, close_link s t tw e = Ok (e', b) -> Logs e e').
  { intros s u w a b r H. destruct w; [eapply (logs_close u s); exact H|eapply logs_close; exact H]. }
  assert (R2 : forall s t tw e e' b, reopen_link s t tw e = Ok (e', b) -> Logs e e').
  { intros s u w a b r H. destruct w; [eapply (logs_reopen u s); exact H|eapply logs_reopen; exact H]. }
  unfold enact_one; intro Hs. rstep Hs. eapply logs_trans with v.
  - rinv E; auto. unfold enact_close in E. rename E into H.
    rstep H; [eapply (change_border_rel Logs logs_refl logs_trans logs_close logs_reopen); exact H|].
    rstep H; [rstep H; destruct v0; subst; eapply (change_location_rel Logs logs_refl logs_trans logs_close logs_reopen); exact E|].
    rstep H; [rstep H; destruct v0; subst; eapply C2; exact E|].
    rstep H; [eapply logs_close_camp; eauto|].
    rstep H; [eapply logs_close_camp; eauto|].
    rstep H; [eapply logs_forced; eauto|]. rinv H; auto.
  - rinv Hs; auto. unfold enact_open in Hs. rename Hs into H.
    rstep H; [eapply (change_border_rel Logs logs_refl logs_trans logs_close logs_reopen); exact H|].
    rstep H; [rstep H; destruct v0; subst; eapply (change_location_rel Logs logs_refl logs_trans logs_close logs_reopen); eassumption|].
    rstep H; [rstep H; destruct v0; subst; eapply R2; eassumption|].
    rstep H; [eapply logs_open_camp; eauto|].
    rstep H; [eapply logs_open_camp; eauto|].
    rstep H; [eapply logs_forced; eauto|]. rinv H; auto.
Qed.

Lemma logs_store_input S o f ig ch e g e' g' ig' :
  store_input S o f ig ch e g = Ok (e', g', ig') -> Logs e e'.
Proof.
  unfold store_input; intro H. do 2 rstep H. cbv zeta in H. rstep H. destruct v1 as [e1 g1].
  do 4 rstep H. rinv H.
  apply (logs_trans _ v1); [|same].
  eapply logs_trans with e1.
  - eapply (foldM_rel (fun s s' => Logs (fst s) (fst s'))) in E1; eauto using logs_trans.
    intros [e2 g2] l [e3 g3] _ Hs. cbn [fst]. unfold store_location in Hs.
    do 10 rstep Hs. cbv zeta in Hs. rstep Hs.
    do 2 rstep Hs. cbv zeta in Hs. rstep Hs.
    repeat match goal with x : eco * rng |- _ => destruct x end.
    rstep Hs. rinv Hs. eapply logs_trans; [eapply logs_add_location; eassumption|]. same.
  - eapply logs_foldM in E2; [exact E2|].
    intros e2 lk e3 Hs. unfold store_link in Hs. rstep Hs. cbv zeta in Hs.
    assert (U : forall (forced swap : bool) a e e',
      (n1 <- cellv lk 0 ;; n2 <- cellv lk 1 ;; c2 <- cellv lk 2 ;;
       dist <- of_option ValueError (parse_Q c2) ;;
       if swap then link_up n2 n1 dist forced (Some a) e
       else link_up n1 n2 dist forced (Some a) e) = Ok e' -> Logs e e').
    { intros fo sw a ea eb Hu. do 4 rstep Hu. rinv Hu; eauto using logs_link_up. }
    rstep Hs; [|eapply (U false false); exact Hs]. rstep Hs.
    rstep Hs.
    match goal with E : (if _ then _ else Ok e2) = Ok ?w |- _ => eapply logs_trans with w;
      [rstep E; [eapply (U true false); exact E|rinv E; auto]|] end.
    rstep Hs; [eapply (U true true); exact Hs|eapply (U false false); exact Hs].
Qed.

Lemma logs_clear names e e' : clear_locations names e = Ok e' -> Logs e e'.
Proof.
  unfold clear_locations; intro H. rstep H. rinv H. eapply logs_trans with v; [|same].
  eapply logs_foldM in E; [exact E|]. intros s a s' Hs. rstep Hs. rstep Hs; [|discriminate].
  unfold dec_at in Hs. rinv Hs; same.
Qed.

Theorem step_logs o S c e g e' g' : is_evolve c = false ->
  step o S c e g = Ok (e', g') -> Logs e e'.
Proof.
  intros N1 H. destruct c; try discriminate; cbn [step] in H;
    try (rstep H; rinv H);
    try match goal with E : rmap fst _ = Ok _ |- _ =>
          let P := fresh in apply rmap_ok in E as ([? ?] & P & ->); cbn [fst] end.
  - eapply logs_add_location; eauto.
  - eapply logs_link_up; eauto.
  - eapply logs_set_attr; eauto.
  - eapply logs_add_agent; eauto.
  - eapply logs_append; eauto.
  - eapply logs_foldM in E; [exact E|]. intros; eapply logs_append; eauto.
  - eapply logs_clear; eauto.
  - destruct twoway; eapply logs_remove_1way; eauto.
  - destruct twoway; eapply logs_reopen_1way; eauto.
  - eapply (change_location_rel Logs); eauto using logs_trans, logs_close, logs_reopen.
  - eapply (change_location_rel Logs); eauto using logs_trans, logs_close, logs_reopen.
  - eapply (change_border_rel Logs); eauto using logs_trans, logs_close, logs_reopen.
  - eapply (change_border_rel Logs); eauto using logs_trans, logs_close, logs_reopen.
  - eapply logs_close_camp; eauto.
  - eapply logs_open_camp; eauto.
  - eapply logs_change_type; eauto.
  - eapply logs_forced; eauto.
  - rinv H. same.
  - unfold enact_border_closures in E. eapply logs_foldM in E; [exact E|]. intros; eapply logs_enact_one; eauto.
  - eapply logs_refresh; eauto.
  - eapply logs_add_conflict; eauto.
  - eapply logs_remove_conflict; eauto.
  - eapply logs_set_intensity; eauto.
  - eapply logs_initial; eauto.
  - eapply logs_spawn_daily; eauto.
  - eapply logs_read_agents; eauto.
  - eapply logs_store_input; eauto.
  - eapply logs_update_attributes; eauto.
  - eapply logs_add_new_conflict_zones; eauto.
Qed.
