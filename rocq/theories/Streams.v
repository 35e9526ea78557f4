(** * Streams: no call changes the random streams, they only advance *)

From Coq Require Import Lia.
From Verif Require Import Base State Moving Crawling Scoring Diagnostics Flee DataTable
  Spawning InputGeography Api Lemmas Inv InvMoves InvStruct Frames SpecRoutes SpecTravel ScoreFrames Travel.

Lemma streams_person_evolve S o t f ai e g e' g' : person_evolve S o t f ai e g = Ok (e', g') -> Streams g g'.
Proof.
  intro H. unfold person_evolve in H. rstep H. rstep H; [injection H as _ <-; auto|]. rstep H; try discriminate.
  rstep H. rstep H. destruct (rng_u g) as [u g1] eqn:Eu. apply streams_u in Eu.
  rstep H; [|injection H as _ <-; assumption].
  rstep H. destruct v2 as [rt g2].
  assert (S2 : Streams g1 g2).
  { destruct (a_route v) as [[|]|]; try discriminate; [eapply streams_select; eauto|injection E2 as _ <-; auto]. }
  rstep H. destruct v2 as [dest rest]. cbv zeta in H.
  assert (g' = g2) as -> by (destruct dest; [rstep H|]; congruence).
  eapply streams_trans; eauto.
Qed.

Lemma streams_finish_travel fuel S o t ai : forall e g e' g',
  finish_travel fuel S o t ai e g = Ok (e', g') -> Streams g g'.
Proof.
  induction fuel as [|fuel IH]; intros e g e' g' H; cbn [finish_travel] in H;
    (rstep H; rstep H; [injection H as _ <-; auto|]); [discriminate|].
  rstep H; try discriminate. rstep H. rstep H. destruct v1 as [s g1]. cbv zeta in H.
  pose proof (streams_speed _ _ _ _ _ _ _ E1) as St.
  rstep H; [|injection H as _ <-; assumption].
  rstep H; [rstep H; injection H as _ <-; assumption|].
  rstep H. rstep H.
  match type of H with (if ?b then _ else _) = _ => destruct b end; [|injection H as _ <-; assumption].
  rstep H. rstep H. destruct v4 as [e6 g2].
  eapply streams_trans; [exact St|]. eapply streams_trans; [eapply streams_person_evolve; eauto|]. eapply IH; eauto.
Qed.

Lemma streams_foldM {A E} (f : E * rng -> A -> res (E * rng)) l e g e' g' :
  (forall e g a e' g', f (e, g) a = Ok (e', g') -> Streams g g') ->
  foldM f l (e, g) = Ok (e', g') -> Streams g g'.
Proof.
  intros Hf H. eapply (foldM_rel (fun s s' => Streams (snd s) (snd s'))) in H;
    [exact H|auto|eauto using streams_trans|]. intros [] a [] _ Hs. eapply Hf; exact Hs.
Qed.

Lemma streams_evolve fuel S o e g e' g' : evolve fuel S o e g = Ok (e', g') -> Streams g g'.
Proof.
  unfold evolve; intros H. rstep H. rstep H. destruct v0 as [e1 g1]. rstep H. destruct v0 as [e2 g2].
  rstep H. destruct v0 as [e3 g3]. do 3 rstep H. cbv zeta in H. rstep H. destruct v3. rinv H.
  eapply streams_trans; [eapply sc_update_scores; eassumption|].
  eapply streams_trans; [|eapply streams_trans; [|eapply deactivate_frame; eassumption]].
  - eapply streams_foldM; [|exact E1]. clear. intros e g ai e' g' H. cbv beta iota zeta in H.
    rstep H. rstep H; [eapply streams_person_evolve; eauto..|]. now injection H as _ <-.
  - eapply streams_foldM; [|exact E2]. clear. intros e g ai e' g' H. cbv beta iota zeta in H.
    rstep H. rstep H; [rstep H; destruct v0; injection H as _ <-; eapply streams_finish_travel; eauto..|].
    now injection H as _ <-.
Qed.

Lemma streams_add_location S o n r x y lt mc cap pop f c at_ e g e' g' :
  add_location S o n r x y lt mc cap pop f c at_ e g = Ok (e', g') -> Streams g g'.
Proof.
  unfold add_location; intro H. rstep H. rstep H. cbv zeta in H. do 2 rstep H. destruct v1. rstep H. rinv H.
  eapply sc_updateLocationScore; eauto.
Qed.

Lemma streams_draw dm n : forall g d g', draw_samples dm n g = Ok (d, g') -> Streams g g'.
Proof.
  induction dm as [|[a t] dm IH]; intros g d g' H; cbn in H; [rinv H; auto|].
  rstep H. destruct v as [v g1]. rstep H. destruct v0 as [d1 g2]. rinv H.
  eapply streams_trans; [|eapply IH; eauto].
  unfold draw_sample in E. rstep E. unfold sample_row in E. do 3 (rstep E; [discriminate|]).
  cbv zeta in E. destruct (rng_nu g) eqn:En. rstep E. rinv E. eapply streams_nu; eauto.
Qed.
Lemma streams_spawn_one S dm t i e g e' g' : spawn_one S dm t i (e, g) = Ok (e', g') -> Streams g g'.
Proof.
  unfold spawn_one; intros H. do 2 rstep H. destruct v0. rstep H. rinv H. eapply streams_draw; eauto.
Qed.
Lemma streams_spawn_n S dm t i n e g e' g' : spawn_n S dm t i n (e, g) = Ok (e', g') -> Streams g g'.
Proof. intro H. eapply streams_foldM; [|exact H]. clear. intros e g a e' g' H. eapply streams_spawn_one; exact H. Qed.
Lemma streams_poisson l g z g' : np_poisson l g = Ok (z, g') -> Streams g g'.
Proof.
  unfold np_poisson. intro H. rstep H; [discriminate|]. destruct (rng_nk g) eqn:E. injection H as _ <-.
  eapply streams_nk; eauto.
Qed.
Lemma streams_spawn_loop S dm num e g n e' g' :
  (forall e l g z g', num e l g = Ok (z, g') -> Streams g g') ->
  spawn_loop S dm num e g = Ok (n, e', g') -> Streams g g'.
Proof.
  unfold spawn_loop; intros Hn H.
  eapply (foldM_rel (fun s s' => Streams (snd s) (snd s'))) in H; [exact H|auto|eauto using streams_trans|].
  intros [[t1 e1] g1] i [[t2 e2] g2] _ H1. cbn [fst snd] in *. do 2 rstep H1. destruct v0.
  rstep H1. destruct v0. rinv H1. eapply streams_trans; [eapply Hn; eauto|eapply streams_spawn_n; eauto].
Qed.
Lemma streams_np_choices cdf n : forall g l g', np_choices cdf n g = (l, g') -> Streams g g'.
Proof.
  induction n as [|n IH]; intros g l g' H; cbn [np_choices] in H; [injection H as _ <-; auto|].
  destruct (rng_nu g) as [u g1] eqn:E. destruct (np_choices cdf n g1) as [is_ g2] eqn:E2.
  injection H as _ <-. eapply streams_trans; [eapply streams_nu; eauto|eapply IH; eauto].
Qed.
Lemma streams_pick n e g l g' : pick_spawn_locations n e g = Ok (l, g') -> Streams g g'.
Proof.
  unfold pick_spawn_locations; intro H. cbv zeta in H. do 4 (rstep H; [discriminate|]).
  injection H as H. eapply streams_np_choices; eauto.
Qed.
Lemma streams_spawn_daily S dm t sp d e g n sp' d' e' g' :
  spawn_daily_displaced S dm t sp d e g = Ok (n, sp', d', e', g') -> Streams g g'.
Proof.
  unfold spawn_daily_displaced; intros H.
  rstep H; [|rstep H].
  - rstep H; destruct v as [[? ?] ?]; rinv H. eapply streams_spawn_loop; [|exact E].
    clear. intros e l g z g' H. cbv beta in H. unfold conflict_spawn_number in H. cbv zeta in H.
    repeat (rstep H; try solve [rinv H; auto]). eapply streams_poisson; eauto.
  - rstep H; destruct v as [[? ?] ?]; rinv H. eapply streams_spawn_loop; [|exact E].
    clear. intros e l g z g' H. cbv beta in H. rstep H. unfold flood_spawn_number in H. cbv zeta in H.
    do 1 rstep H. rstep H; [|rinv H; auto]. do 2 rstep H.
    repeat (rstep H; try solve [rinv H; auto]). eapply streams_poisson; eauto.
  - rstep H. destruct v. rstep H. destruct v. cbv zeta in H.
    match type of H with (let (_, _) := ?x in _) = _ => destruct x end.
    rstep H. destruct v. rstep H. destruct v. rinv H.
    eapply streams_trans; [eapply streams_pick; eauto|].
    eapply streams_foldM; [|exact E2]. clear. intros e g a e' g' H. eapply streams_spawn_one; exact H.
Qed.
Lemma streams_store_input S o f ig ch e g e' g' ig' :
  store_input S o f ig ch e g = Ok (e', g', ig') -> Streams g g'.
Proof.
  unfold store_input; intro H. do 2 rstep H. cbv zeta in H. rstep H. destruct v1 as [e1 g1].
  do 4 rstep H. rinv H. eapply streams_foldM; [|exact E1].
  clear. intros e2 g2 l e3 g3 Hs. unfold store_location in Hs.
  do 10 rstep Hs. cbv zeta in Hs. rstep Hs. do 2 rstep Hs. cbv zeta in Hs. rstep Hs.
  repeat match goal with x : eco * rng |- _ => destruct x end.
  rstep Hs. rinv Hs. eapply streams_add_location; eauto.
Qed.

Theorem step_streams o S c e g e' g' : step o S c e g = Ok (e', g') -> Streams g g'.
Proof.
  intro H. destruct c; cbn [step] in H; try (rstep H; rinv H; solve [auto]).
  - eapply streams_add_location; eauto.
  - eapply streams_evolve; eauto.
  - rinv H; auto.
  - unfold add_initial_refugees in H. rstep H; [rinv H; auto|]. do 4 rstep H. eapply streams_spawn_n; eauto.
  - rstep H. destruct v as [[[[? ?] ?] ?] ?]. rinv H. eapply streams_spawn_daily; eauto.
  - rstep H. destruct v as [[? ?] ?]. rinv H. eapply streams_store_input; eauto.
Qed.
Lemma run_streams o h e g e' g' : run o h e g = Ok (e', g') -> Streams g g'.
Proof.
  unfold run; intro H. eapply streams_foldM; [|exact H]. clear. intros e g a e' g' H. eapply step_streams; exact H.
Qed.
Lemma streams_sym g g' : Streams g g' -> Streams g' g.
Proof. intros (A & B & C); repeat split; congruence. Qed.
