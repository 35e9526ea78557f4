(** * LogRun: in the main program all agents have the attributes of the demographics, for C79 *)

From Coq Require Import Lia.
From Verif Require Import Base State Moving Crawling Scoring Diagnostics Flee DataTable Spawning InputGeography Dates DataFiles
  RunScript Api SpecAgents SpecHistory SpecRoutes SpecTravel SpecReports SpecRun Lemmas Inv InvMoves InvStruct Frames ScoreFrames
  CoreProofs ReportProofs Zones LogFrame Coupling SpecCoupling CouplingText AgentLog SpecAgentLog LogHistory Pflee ParApi ParCounts RunProofs LogTextProofs.
Local Open Scope string_scope.
Local Open Scope list_scope.

Lemma have_same keys e e' : SameAgents e e' -> all_have keys e -> all_have keys e'.
Proof. unfold SameAgents, all_have. now intros ->. Qed.
Lemma have_append keys i at_ e e' : append_agent i at_ e = Ok e' -> map fst at_ = keys -> all_have keys e -> all_have keys e'.
Proof.
  unfold append_agent; intros H K A. rinv H. intros b Hb. cbn in Hb. apply in_app_or in Hb as [Hb|[<-|[]]]; [auto|reflexivity].
Qed.
Lemma draw_keys dm : forall name g at_ g', draw_samples dm name g = Ok (at_, g') -> map fst at_ = map fst dm.
Proof.
  induction dm as [|[a t] dm IH]; intros name g at_ g' H; cbn [draw_samples] in H; [injection H as <- <-; reflexivity|].
  destruct (draw_sample t name g) as [[v g1]|]; [|discriminate]. cbn [bind] in H.
  destruct (draw_samples dm name g1) as [[d g2]|] eqn:E; [|discriminate]. cbn [bind] in H. injection H as <- <-. cbn [map fst]. f_equal. eauto.
Qed.
Definition KeyRel (keys : list string) (e e' : eco) : Prop := all_have keys e -> all_have keys e'.
Section Keys.
  Context (dm : demographics).
  Let K := all_have (map fst dm).
  Lemma have_one S t i e g e' g' : spawn_one S dm t i (e, g) = Ok (e', g') -> K e -> K e'.
  Proof.
    unfold spawn_one; intros H A. do 2 rstep H. destruct v0 as [at_ g1]. apply draw_keys in E0. rstep H. rinv H. destruct t.
    - unfold add_agent in E1. rstep E1. cbv zeta in E1. eapply have_append; [exact E1|exact E0|]. destruct (s_TakeFromPopulation S); exact A.
    - eapply have_append; [exact E1|exact E0|exact A].
  Qed.
  Lemma have_spawns {A} S t (f : A -> nat) l e g e' g' : foldM (fun st a => spawn_one S dm t (f a) st) l (e, g) = Ok (e', g') -> K e -> K e'.
  Proof.
    intro H. eapply (foldM_rel (fun s s' : eco * rng => KeyRel (map fst dm) (fst s) (fst s'))) in H; [exact H|red; auto|unfold KeyRel; auto|].
    intros [e1 g1] i [e2 g2] _ Hs. red. eapply have_one; exact Hs.
  Qed.
  Lemma have_spawn_n S t i n e g e' g' : spawn_n S dm t i n (e, g) = Ok (e', g') -> K e -> K e'.
  Proof. intro H. eapply (have_spawns S t (fun _ => i)). exact H. Qed.
  Lemma have_initial S d i e g e' g' : add_initial_refugees S dm d i e g = Ok (e', g') -> K e -> K e'.
  Proof.
    unfold add_initial_refugees; intros H. rstep H; [rinv H; auto|]. do 4 rstep H. eapply have_spawn_n; eauto.
  Qed.
  Lemma have_loop S num e g n e' g' : spawn_loop S dm num e g = Ok (n, e', g') -> K e -> K e'.
  Proof.
    unfold spawn_loop; intros H.
    eapply (foldM_rel (fun s s' : Z * eco * rng => KeyRel (map fst dm) (snd (fst s)) (snd (fst s')))) in H; [exact H|red; auto|unfold KeyRel; auto|].
    intros [[t1 e1] g1] i [[t2 e2] g2] _ H1. cbn [fst snd] in *. do 2 rstep H1. destruct v0.
    rstep H1. destruct v0. rinv H1. red. eapply have_spawn_n; eauto.
  Qed.
  Lemma have_daily S t sp d e g n sp' d' e' g' : spawn_daily_displaced S dm t sp d e g = Ok (n, sp', d', e', g') -> K e -> K e'.
  Proof.
    unfold spawn_daily_displaced; intros H A.
    rstep H; [|rstep H]; [rstep H; destruct v as [[? ?] ?]; rinv H; eapply have_loop; eauto..|].
    rstep H. destruct v. rstep H. destruct v. cbv zeta in H.
    match type of H with (let (_, _) := ?x in _) = _ => destruct x end.
    rstep H. destruct v. rstep H. destruct v. rinv H.
    eapply (have_spawns S true (fun i => i)); [exact E2|]. destruct (_ && _)%bool; exact A.
  Qed.
End Keys.
Lemma have_evolve keys fuel S o e g e' g' : evolve fuel S o e g = Ok (e', g') -> all_have keys e -> all_have keys e'.
Proof.
  intros H A b Hb. apply evolve_keeps in H as (_ & _ & At).
  apply (in_map a_attributes) in Hb. rewrite At in Hb. apply in_map_iff in Hb as (a & <- & Ha). auto.
Qed.

(** Histories without clearLocationsFromAgents *)
Definition cleanly (o : oracle) (e : eco) (g : rng) : Prop := exists h g0, no_clear h /\ run o h empty_eco g0 = Ok (e, g).
Lemma cleanly_step o S c e g e' g' : cleanly o e g -> step o S c e g = Ok (e', g') -> is_clear c = false -> cleanly o e' g'.
Proof.
  intros (h & g0 & N & R) H C. exists (h ++ [(S, c)]), g0. split.
  - apply Forall_app. split; [exact N|]. constructor; [exact C|constructor].
  - unfold run in *. rewrite foldM_app, R. cbn [bind foldM fst snd]. rewrite H. reflexivity.
Qed.

Lemma sa_step' o S c e g e' g' : step o S c e g = Ok (e', g') -> inherited c = true -> SameAgents e e'.
Proof. intros H I. eapply sa_step; eauto. Qed.
Lemma set_up_keys S o inp g w : set_up S o inp g = Ok w -> in_agents inp = None ->
  cleanly o (w_eco w) (w_rng w) /\ all_have (map fst (in_dm inp)) (w_eco w).
Proof.
  unfold set_up. intros H Ag. destruct (read_sim_period (in_period inp)) as [[start n]|]; [|discriminate]. cbn [bind] in H. cbv zeta in H.
  destruct (store_input S o (in_factor inp) (in_geo inp) (in_changes inp) empty_eco g) as [[[e g1] ig]|] eqn:E1; [|discriminate]. cbn [bind] in H.
  rewrite Ag in H. cbn [bind] in H.
  assert (R1 : step o S (OStoreInput (in_factor inp) (in_geo inp) (in_changes inp)) empty_eco g = Ok (e, g1)) by (cbn [step]; rewrite E1; reflexivity).
  assert (C1 : cleanly o e g1).
  { eapply cleanly_step; [|exact R1|reflexivity]. exists [], g. split; [constructor|reflexivity]. }
  assert (K1 : all_have (map fst (in_dm inp)) e).
  { eapply (have_same _ empty_eco); [|intros a []]. eapply (store_input_rel SameAgents); [..|exact E1]; eauto using sa_refl, sa_trans, sa_still.
    - intros; eapply sa_add_location; eauto.
    - intros; eapply sa_link_up; eauto. }
  destruct (new_table _ _ _ _ _) as [d0|]; [|discriminate]. cbn [bind] in H.
  destruct (read_corrections _ _ _) as [d|]; [|discriminate]. cbn [bind] in H.
  destruct (foldM _ _ _) as [[e2 g2]|] eqn:E5 in H; [|discriminate]. cbn [bind] in H. injection H as <-. cbn [w_eco w_rng].
  change (cleanly o (fst (e2, g2)) (snd (e2, g2)) /\ all_have (map fst (in_dm inp)) (fst (e2, g2))).
  eapply (foldM_inv (fun st : eco * rng => cleanly o (fst st) (snd st) /\ all_have (map fst (in_dm inp)) (fst st))); [..|exact E5]; [|auto].
  intros [e3 g3] c [e4 g4] _ [X Y] Hs. cbn [fst snd] in *. destruct (lm_index e3 c) as [i|]; [|discriminate]. cbn [bind] in Hs. split.
  - eapply (cleanly_step o S (OAddInitialRefugees (in_dm inp) d i)); [exact X|exact Hs|reflexivity].
  - eapply have_initial; eauto.
Qed.

Theorem run_keys fuel S o inp g0 w : set_up S o inp g0 = Ok w -> in_agents inp = None ->
  forall t sp d e g, simulated fuel S o inp w t sp d e g ->
  cleanly o e g /\ all_have (map fst (in_dm inp)) e.
Proof.
  intros U Ag t sp d e g H. apply set_up_keys in U as [C0 K0]; [|exact Ag].
  induction H as [|t sp d e g e1 g1 n sp' d' e2 g2 e' g' _ IH H1 H2 H3]; [auto|].
  destruct IH as [C K]. pose proof (cleanly_step _ _ _ _ _ _ _ C H1 eq_refl) as C1. pose proof (have_same _ _ _ (sa_step' _ _ _ _ _ _ _ H1 eq_refl) K) as K1.
  assert (H2' : step o S (OSpawnDailyDisplaced (in_dm inp) (Z.of_nat t) sp d) e1 g1 = Ok (e2, g2)) by (unfold step; rewrite H2; reflexivity).
  pose proof (cleanly_step _ _ _ _ _ _ _ C1 H2' eq_refl) as C2. pose proof (have_daily _ _ _ _ _ _ _ _ _ _ _ _ H2 K1) as K2.
  rewrite RunProofs.run_cons in H3. destruct (step o S ORefreshSpawnWeights e2 g2) as [[e3 g3]|] eqn:E3; [|discriminate]. cbn [bind fst snd] in H3.
  pose proof (cleanly_step _ _ _ _ _ _ _ C2 E3 eq_refl) as C3. pose proof (have_same _ _ _ (sa_step' _ _ _ _ _ _ _ E3 eq_refl) K2) as K3.
  rewrite RunProofs.run_cons in H3. destruct (step o S (OEnactBorderClosures _ _ _) e3 g3) as [[e4 g4]|] eqn:E4; [|discriminate]. cbn [bind fst snd] in H3.
  pose proof (cleanly_step _ _ _ _ _ _ _ C3 E4 eq_refl) as C4. pose proof (have_same _ _ _ (sa_step' _ _ _ _ _ _ _ E4 eq_refl) K3) as K4.
  rewrite run_one in H3. split; [eapply cleanly_step; [exact C4|exact H3|reflexivity]|].
  eapply have_evolve; [exact H3|exact K4].
Qed.

(** What the reader of the log of a main program without agents.csv finds *)
Theorem run_table fl rank fuel S o inp g0 w : set_up S o inp g0 = Ok w -> in_agents inp = None ->
  forall t sp d e g, simulated fuel S o inp w t sp d e g ->
  forall r, In r (e_agents_out e) -> exists a, nth_error (e_agents e) (ar_agent r) = Some a /\ map fst (a_attributes a) = map fst (in_dm inp) /\
    List.length (cells fl rank r) = List.length (headings (map fst (in_dm inp))) /\
    forall j k v, nth_error (a_attributes a) j = Some (k, v) ->
      nth_error (headings (map fst (in_dm inp))) (10 + j) = Some k /\ nth_error (cells fl rank r) (10 + j) = Some (val_text fl v).
Proof.
  intros U Ag t sp d e g H r Hr. destruct (run_keys _ _ _ _ _ _ U Ag _ _ _ _ _ H) as [(h & g1 & N & R) K].
  destruct (under_heading fl rank _ _ _ _ _ _ N R K r Hr) as (a & Ha & L & V). exists a. split; [exact Ha|].
  split; [exact (K a (nth_error_In _ _ Ha))|]. auto.
Qed.
