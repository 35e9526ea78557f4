(** * TravelRun: days of travel in whole runs *)

From Coq Require Import Lia Lqa Qround.
From Verif Require Import Base State Moving Crawling Scoring Diagnostics Flee DataTable
  Spawning InputGeography Api SpecAgents SpecHistory SpecRoutes SpecTravel Lemmas Inv InvMoves InvStruct
  ScoreFrames RouteProofs Traffic Frames Travel Streams Terminate.
Local Open Scope Q_scope.

(** ** Between calls no agent has travelled today, and no agent is beyond its link *)

Definition settled_agent (e : eco) (a : agent) : Prop :=
  a_distance_moved_this_timestep a = 0 /\
  forall ki k, a_location a = PLink ki -> nth_error (e_links e) ki = Some k ->
    a_distance_travelled_on_link a <= k_distance k.
Definition settled (e : eco) : Prop := forall a, In a (e_agents e) -> settled_agent e a.

Lemma day_end S e m n p x m' n' p' x' : day S e m n p x m' n' p' x' ->
  match p' with
  | PLink ki => exists k, nth_error (e_links e) ki = Some k /\ x' <= k_distance k
  | PLoc _ => True
  | PGone _ => False
  end.
Proof. induction 1; eauto. Qed.

Lemma evolve_moved fuel S o e g e' g' : evolve fuel S o e g = Ok (e', g') ->
  List.length (e_agents e') = List.length (e_agents e) /\
  forall ai a', nth_error (e_agents e') ai = Some a' ->
    a_distance_moved_this_timestep a' = 0 /\
    (gone_of a' = None -> exists a, nth_error (e_agents e) ai = Some a /\ gone_of a = None).
Proof.
  intro H. unfold evolve in H. rstep H. rename v into e0.
  rstep H. destruct v as [e1 g1]. rstep H. destruct v as [e2 g2]. rstep H. destruct v as [e3 g3].
  do 3 rstep H. rename v into e4, v0 into e5, v1 into e6. cbv zeta in H. rstep H. destruct v as [e8 g8]. rinv H.
  assert (T3 : Turn e e2).
  { eapply turn_trans; [eapply turn_still, still_refresh; eauto|].
    eapply turn_trans; [eapply turn_still, still_update_scores; eauto|].
    eapply turn_evolve_agents; eauto. }
  apply finish_agents_view in E2 as (_ & _ & V3).
  assert (V5 : map tview (e_agents e5) = map tick (map tview (e_agents e))).
  { rewrite <- (t_view _ _ T3), <- V3.
    assert (A5 : e_agents e5 = e_agents e3).
    { transitivity (e_agents e4); [unfold write_links in E4; rinv E4 | unfold write_agents in E3; rinv E3]; reflexivity. }
    now rewrite A5. }
  apply deactivate_spec in E6 as (_ & _ & _ & _ & _ & D & D8).
  assert (A7 : e_agents (aggregate_arrivals S e6) = e_agents e6).
  { unfold aggregate_arrivals. destruct (0 <? s_log_camp S)%Z; reflexivity. }
  rewrite A7 in *. unfold update_recent in E5. rstep E5. rinv E5. cbn [e_agents up_e_agents up_e_time] in *.
  pose proof (mapM_ok_length _ _ _ E2) as L6.
  pose proof (map_eq_length _ _ _ _ D) as L8.
  pose proof (f_equal (@List.length _) V5) as L5. rewrite !map_length in L5.
  split; [lia|].
  intros ai a' Ha'.
  destruct (nth_error_ex v ai) as [a6 Ha6]. { apply nth_error_lt in Ha'. lia. }
  destruct (D8 ai a6 Ha6) as (a'' & Ha'' & C). assert (a'' = a') as -> by congruence.
  destruct (mapM_nth_inv _ _ _ _ _ E2 Ha6) as (a5 & Ha5 & F5). rstep F5. injection F5 as <-.
  split. { destruct C as [->|(i & l & -> & _)]; reflexivity. }
  intro G. assert (G5 : gone_of a5 = None).
  { destruct C as [->|(i & l & -> & _)]; [exact G|discriminate]. }
  rewrite map_map in V5.
  destruct (map_eq_nth (fun a => tick (tview a)) tview (e_agents e) (e_agents e5) ai a5 (eq_sym V5) Ha5) as (a & Ha & F).
  exists a. split; [assumption|]. unfold tick, tview in F. rewrite G5 in F. destruct (gone_of a); [|reflexivity]. discriminate.
Qed.

Lemma evolve_settled fuel S o e g e' g' : Inv e -> rng_ok g -> evolve fuel S o e g = Ok (e', g') -> settled e'.
Proof.
  intros I G H a' Hin. apply In_nth_error in Hin as [ai Ha'].
  destruct (evolve_moved _ _ _ _ _ _ _ H) as [_ M]. destruct (M ai a' Ha') as [M0 Back].
  split; [assumption|]. intros ki k L K.
  destruct Back as (a & Ha & NG). { unfold gone_of. now rewrite L. }
  destruct (evolve_day _ _ _ _ _ _ _ I G H) as (N & _ & D).
  destruct (D ai a Ha NG) as (b & a'' & Ha'' & Db & Lb & _ & X & _).
  assert (a'' = a') as -> by congruence. apply day_end in Db.
  destruct Lb as [Lb|(i & _ & Lb)]; [|congruence]. rewrite <- Lb, L in Db. destruct Db as (k0 & K0 & Db).
  destruct (net_link _ _ _ _ N K0) as (k' & K' & _ & Ed). assert (k' = k) as -> by congruence.
  rewrite X, Ed. exact Db.
Qed.

Lemma settled_quiet e e' : Inv e -> Quiet e e' -> Grow e e' -> settled e -> settled e'.
Proof.
  intros I [_ _ (new & A & F)] Gr Se a Hin. rewrite A in Hin. apply in_app_or in Hin as [Hin|Hin].
  - destruct (Se a Hin) as [S1 S2]. split; [assumption|]. intros ki k L K.
    destruct (i_agents _ I a Hin) as [_ AO]. rewrite L in AO. destruct AO as [AO _].
    destruct (nth_error_ex _ _ AO) as [k0 K0]. destruct (Gr ki k0 K0) as (k' & K' & _ & _ & Ed & _).
    assert (k' = k) as -> by congruence. rewrite Ed. eapply S2; eauto.
  - rewrite Forall_forall in F. destruct (F a Hin) as (i & at_ & ->). split; [reflexivity|]. intros; discriminate.
Qed.

Lemma step_settled o S c e g e' g' : Inv e -> rng_ok g -> step o S c e g = Ok (e', g') -> settled e -> settled e'.
Proof.
  intros I G H Se. destruct (is_evolve c) eqn:E1; [|destruct (is_clear c) eqn:E2].
  - destruct c; try discriminate. eapply evolve_settled; eauto.
  - destruct c; try discriminate. cbn in H. rstep H. rinv H. apply clear_spec in E as [A _].
    intros a Hin. rewrite A in Hin. destruct Hin.
  - eapply settled_quiet; [exact I|eapply step_quiet; eauto|eapply step_grow; eauto|assumption].
Qed.

Lemma run_settled o h : forall e g e' g', Inv e -> rng_ok g -> run o h e g = Ok (e', g') -> settled e -> settled e'.
Proof.
  induction h as [|c h IH]; intros e g e' g' I G H Se; unfold run in *; cbn [foldM] in H; [now rinv H|].
  rstep H. destruct v as [e1 g1]. cbn [fst snd] in E.
  eapply (IH e1 g1); [eapply step_inv; eauto| |exact H|eapply step_settled; eauto].
  eapply streams_ok; [eapply step_streams; eauto|assumption].
Qed.

Lemma reachable_settled o e g : reachable o e g -> rng_ok g -> settled e.
Proof.
  intros (h & g0 & H) G. eapply run_settled; [apply inv_empty| |exact H|].
  - eapply streams_ok; [apply streams_sym; eapply run_streams; eauto|assumption].
  - intros a [].
Qed.
