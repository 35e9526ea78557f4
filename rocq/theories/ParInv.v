(** * ParInv: what holds on every process of a parallel program at any time *)

From Coq Require Import Lia.
From Verif Require Import Base State Moving Crawling Scoring Diagnostics Flee DataTable
  Spawning InputGeography Api Pflee ParApi SpecAgents Lemmas Inv InvMoves InvStruct Frames
  ScoreFrames Travel Profile ReportProofs Skeleton ParProofs.
Local Open Scope list_scope.

Definition Meta (e e' : eco) : Prop :=
  e_par e' = e_par e /\ e_rank e' = e_rank e /\ e_mpi_size e' = e_mpi_size e.
Lemma meta_refl e : Meta e e. Proof. repeat split. Qed.
Lemma meta_trans a b c : Meta a b -> Meta b c -> Meta a c.
Proof. intros (A & B & C) (D & E & F). repeat split; congruence. Qed.
Lemma meta_fx e e' : Fx e e' -> Meta e e'.
Proof.
  intros [A B]. repeat split; [exact (f_equal e_par A)|exact B|exact (f_equal e_mpi_size A)].
Qed.
#[export] Hint Resolve meta_refl : core.

Record Procs (n : nat) (es : list eco) : Prop := {
  pr_len : List.length es = n;
  pr_each : forall r e, nth_error es r = Some e ->
    Inv e /\ e_par e = true /\ e_rank e = Z.of_nat r /\ e_mpi_size e = Z.of_nat n;
  pr_twin : forall a b, In a es -> In b es -> Twin a b }.

Lemma Forall2_nth_inv {A B} (R : A -> B -> Prop) l m i b :
  Forall2 R l m -> nth_error m i = Some b -> exists a, nth_error l i = Some a /\ R a b.
Proof.
  intro H. revert i. induction H; intros [|i] E; try discriminate; cbn in *.
  - injection E as <-. eauto.
  - auto.
Qed.
Lemma Forall2_len {A B} (R : A -> B -> Prop) l m : Forall2 R l m -> List.length l = List.length m.
Proof. induction 1; cbn; congruence. Qed.

Lemma procs_step n es es' (R : eco -> eco -> Prop) : Procs n es -> Forall2 R es es' ->
  (forall e e', In e es -> Inv e -> e_par e = true -> R e e' -> Inv e' /\ Meta e e') ->
  (forall a a' b b', Inv a -> Inv b -> Twin a b -> R a a' -> R b b' -> Twin a' b') -> Procs n es'.
Proof.
  intros [P1 P2 P3] F HI HT. split.
  - now rewrite <- (Forall2_len _ _ _ F).
  - intros r e' He. destruct (Forall2_nth_inv _ _ _ _ _ F He) as (e & He0 & Re).
    destruct (P2 _ _ He0) as (I & A & B & C).
    destruct (HI e e' (nth_error_In _ _ He0) I A Re) as (I' & A' & B' & C').
    split; [exact I'|]. repeat split; congruence.
  - intros a' b' Ha Hb. apply In_nth_error in Ha as [i Ha]. apply In_nth_error in Hb as [j Hb].
    destruct (Forall2_nth_inv _ _ _ _ _ F Ha) as (a & Ha0 & Ra).
    destruct (Forall2_nth_inv _ _ _ _ _ F Hb) as (b & Hb0 & Rb).
    eapply HT; [exact (proj1 (P2 _ _ Ha0))|exact (proj1 (P2 _ _ Hb0))|
      apply P3; eapply nth_error_In; eauto|exact Ra|exact Rb].
Qed.

Lemma local_forall2 f st st' : local f st = Ok st' ->
  Forall2 (fun e e' => exists g g', f e g = Ok (e', g')) (map fst st) (map fst st').
Proof.
  unfold local. intro H. apply mapM_Forall2 in H. induction H as [|[e g] [e' g'] st st' H _ IH]; constructor; auto.
  exists g, g'. exact H.
Qed.

(** A local call that leaves the skeleton alone *)
Definition Quietly (f : eco -> rng -> res (eco * rng)) : Prop :=
  forall e g e' g', f e g = Ok (e', g') -> e_par e = true -> (Inv e -> Inv e') /\ Fx e e'.
Lemma procs_quiet n f st st' : Quietly f -> Procs n (map fst st) -> local f st = Ok st' -> Procs n (map fst st').
Proof.
  intros Q P H. pose proof (pr_each _ _ P) as PE. pose proof (pr_twin _ _ P) as PT.
  assert (Pa : forall e, In e (map fst st) -> e_par e = true).
  { intros e He. apply In_nth_error in He as [r He]. apply (PE _ _ He). }
  apply local_forall2 in H.
  assert (H1 : Forall2 (fun e e' => e_par e = true /\ exists g g', f e g = Ok (e', g')) (map fst st) (map fst st')).
  { clear - H Pa. induction H; constructor; [split; [apply Pa; now left|assumption]|]. apply IHForall2. intros; apply Pa; now right. }
  eapply procs_step; [exact P|exact H1| |].
  - intros e e' _ I A (_ & g & g' & E). destruct (Q _ _ _ _ E A) as (Q1 & Q2). split; [auto|]. now apply meta_fx.
  - intros a a' b b' _ _ T (Aa & g & g' & E) (Ab & h & h' & F).
    eapply twin_fx; [exact T|exact (proj2 (Q _ _ _ _ E Aa))|exact (proj2 (Q _ _ _ _ F Ab))].
Qed.

(** ** The phases of evolve *)

Lemma inv_still e e' : Still e e' -> Inv e -> Inv e'.
Proof. intros H I. eapply inv_same; [exact (sl_same _ _ H)|exact I]. Qed.

Lemma fx_updateLocationScore S o t i e g e' g' : updateLocationScore S o t i e g = Ok (e', g') -> Fx e e'.
Proof. intro H. apply sc_updateLocationScore in H as [H _]. now apply fx_sc. Qed.
Lemma quiet_scores_of S o (f : eco -> list nat) : Quietly (fun e g => update_scores_of S o (f e) e g).
Proof.
  intros e g e' g' H _. unfold update_scores_of in H. split.
  - intro I. eapply inv_foldM2; [|exact I|exact H]. cbn.
    intros e1 g1 a e2 g2 I1 H1. eapply inv_still; [eapply still_updateLocationScore; exact H1|exact I1].
  - eapply fx_foldM2; [|exact H]; cbv beta iota. intros; eapply fx_updateLocationScore; eauto.
Qed.
Lemma quiet_first S o : Quietly (first_scores S o).
Proof.
  intros e g e' g' H A. unfold first_scores in H. destruct (e_time e =? 0)%Z; [|injection H as <- <-; auto].
  eapply (foldM_rel (fun a b => e_par (fst a) = true -> (Inv (fst a) -> Inv (fst b)) /\ Fx (fst a) (fst b))) in H.
  - cbn [fst] in H. auto.
  - intros [e1 g1]; cbn [fst]; auto.
  - intros [e1 g1] [e2 g2] [e3 g3] B C P; cbn [fst] in *. destruct (B P) as [B1 B2].
    destruct C as [C1 C2]; [rewrite (proj1 (meta_fx _ _ B2)); exact P|]. split; [auto|]. eapply fx_trans; eauto.
  - intros [e1 g1] a [e2 g2] _ Hs P; cbn [fst] in *. exact (quiet_scores_of S o own_round_robin e1 g1 e2 g2 Hs P).
  - exact A.
Qed.
Lemma quiet_update_scores S o : Quietly (update_scores S o).
Proof.
  intros e g e' g' H A. split; [intro I; eapply inv_still; [eapply still_update_scores; exact H|exact I]|].
  apply sc_update_scores in H as [H _]. now apply fx_sc.
Qed.
Lemma fx_generate S o i e g e' g' : generateLocationRoutes S o i e g = Ok (e', g') -> Fx e e'.
Proof. intro H. apply fx_sc. apply rt_generate in H as [H _]. eapply sc_rt; eauto. Qed.
Lemma quiet_missing S o : Quietly (missing_routes S o).
Proof.
  intros e g e' g' H A. unfold missing_routes in H. destruct (s_FixedRoutes S); [|injection H as <- <-; auto].
  split.
  - intro I. eapply inv_foldM2; [|exact I|exact H]. cbn.
    intros e1 g1 a e2 g2 I1 H1. rstep H1. destruct (l_routes v); [|injection H1 as <- <-; exact I1].
    eapply inv_still; [eapply still_generate; exact H1|exact I1].
  - eapply fx_foldM2; [|exact H]; cbv beta iota. intros e1 g1 a e2 g2 H1. rstep H1.
    destruct (l_routes v); [|injection H1 as <- <-; auto]. eapply fx_generate; eauto.
Qed.
Lemma quiet_evolve_agents S o : Quietly (par_evolve_agents S o).
Proof.
  intros e g e' g' H A. unfold par_evolve_agents in H. split.
  - intro I. eapply inv_foldM2; [|exact I|exact H]; cbv beta iota.
    intros e1 g1 a e2 g2 I1 H1. eapply inv_person_evolve; eauto.
  - eapply fx_foldM2; [|exact H]; cbv beta iota. intros e1 g1 a e2 g2 H1. eapply fx_mov, mov_person_evolve; eauto.
Qed.
Lemma quiet_finish_agents fuel S o : Quietly (par_finish_agents fuel S o).
Proof.
  intros e g e' g' H A. unfold par_finish_agents in H. split.
  - intro I. eapply inv_foldM2; [|exact I|exact H]; cbv beta iota.
    intros e1 g1 a e2 g2 I1 H1. rstep H1. destruct v as [e3 g3]. injection H1 as <- <-.
    eapply inv_same; [apply same_up_agent; reflexivity|]. eapply inv_finish_travel; eauto.
  - eapply fx_foldM2; [|exact H]; cbv beta iota. intros e1 g1 a e2 g2 H1. rstep H1. destruct v as [e3 g3].
    injection H1 as <- <-. eapply fx_trans; [eapply fx_mov, mov_finish_travel; eauto|]. apply fx_mov, mov_up_agent.
Qed.
Lemma quiet_logs S : Quietly (par_logs S).
Proof.
  intros e g e' g' H A. unfold par_logs in H. do 3 rstep H. injection H as <- <-.
  assert (A1 : (Inv e -> Inv v) /\ Fx e v).
  { destruct (0 <? s_log_agent S)%Z; [|injection E as <-; auto].
    split; [apply inv_still; eapply still_write_agents; eauto|eapply fx_write_agents; eauto]. }
  assert (A2 : (Inv v -> Inv v0) /\ Fx v v0).
  { destruct (0 <? s_log_link S)%Z; [|injection E0 as <-; auto].
    split; [apply inv_still; eapply still_write_links; eauto|eapply fx_write_links; eauto]. }
  split.
  - intro I. eapply inv_same; [eapply same_update_recent; exact E1|]. tauto.
  - eapply fx_trans; [exact (proj2 A1)|]. eapply fx_trans; [exact (proj2 A2)|]. eapply fx_update_recent; eauto.
Qed.
Lemma quiet_aggregate S : Quietly (fun e g => Ok (aggregate_arrivals S e, g)).
Proof.
  intros e g e' g' H A. injection H as <- <-. split; [|apply fx_aggregate].
  apply inv_same, same_aggregate.
Qed.
Lemma quiet_sinks S : Quietly (par_sinks S).
Proof.
  intros e g e' g' H A. unfold par_sinks in H. destruct (s_camps_are_sinks S); [rstep H|]; injection H as <- <-; auto.
Qed.

(** ** Collectives *)

Lemma procs_map n f es : Procs n es ->
  (forall e, In e es -> e_par e = true -> (Inv e -> Inv (f e)) /\ Meta e (f e)) ->
  (forall a b, In a es -> In b es -> Twin a b -> Twin (f a) (f b)) -> Procs n (map f es).
Proof.
  intros P H T. eapply (procs_step n es (map f es) (fun e e' => In e es /\ e' = f e)); [exact P| | |].
  - clear P T H. assert (W : forall l, incl l es -> Forall2 (fun e e' => In e es /\ e' = f e) l (map f l)).
    { induction l as [|e l IH]; intro Hi; constructor; [split; [apply Hi; now left|reflexivity]|].
      apply IH. intros x Hx; apply Hi; now right. }
    apply W, incl_refl.
  - intros e e' He I A [_ ->]. destruct (H e He A); auto.
  - intros a a' b b' _ _ Tab [Ha ->] [Hb ->]. auto.
Qed.

Lemma same_locs f e : map lstruct (f (e_locations e)) = map lstruct (e_locations e) ->
  map (lhead (e_par e)) (f (e_locations e)) = map (lhead (e_par e)) (e_locations e) ->
  Same e (up_e_locations f e).
Proof. intros H1 H2; split; try reflexivity; [split; try reflexivity|]; assumption. Qed.

Lemma set_scores_map {B} (pr : location -> B) sc ls :
  (forall a b l, pr (up_l_score0 a (up_l_score1 b l)) = pr l) -> map pr (set_scores sc ls) = map pr ls.
Proof.
  intro H. revert sc. induction ls as [|l ls IH]; intros [|s0 [|s1 sc]]; cbn [set_scores map]; try reflexivity.
  now rewrite H, IH.
Qed.
Lemma set_spawned_map {B} (pr : location -> B) ts ls :
  (forall a l, pr (up_l_numAgentsSpawned a l) = pr l) -> map pr (set_spawned ts ls) = map pr ls.
Proof.
  intro H. revert ts. induction ls as [|l ls IH]; intros [|t ts]; cbn [set_spawned map]; try reflexivity.
  now rewrite H, IH.
Qed.

Lemma procs_synchronize n es : Procs n es -> Procs n (synchronize es).
Proof.
  intro P. unfold synchronize. cbv zeta. apply procs_map; [exact P| |].
  - intros e _ A. split.
    + apply inv_same, same_locs; apply set_scores_map; reflexivity.
    + apply meta_fx, fx_locs, set_scores_map; reflexivity.
  - intros a b _ _ T. eapply twin_fx; [exact T| |]; apply fx_locs, set_scores_map; reflexivity.
Qed.
Lemma procs_spawned n es es' : Procs n es -> sync_spawned es = Ok es' -> Procs n es'.
Proof.
  intros P H. unfold sync_spawned in H. rstep H. injection H as <-. apply procs_map; [exact P| |].
  - intros e _ A. split.
    + apply inv_same, same_locs; apply set_spawned_map; reflexivity.
    + apply meta_fx, fx_locs, set_spawned_map; reflexivity.
  - intros a b _ _ T. eapply twin_fx; [exact T| |]; apply fx_locs, set_spawned_map; reflexivity.
Qed.

Lemma set_heads_map {B} (pr : location -> B) T ls :
  (forall a l, pr (up_l_numAgents a l) = pr l) -> forall i, map pr (set_heads T i ls) = map pr ls.
Proof. intro H. induction ls as [|l ls IH]; intro i; cbn [set_heads map]; [reflexivity|]. now rewrite H, IH. Qed.
Lemma set_roads_map {B} (pr : link -> B) T ks : 
  (forall a l, pr (up_k_numAgents a l) = pr l) -> forall h, map pr (set_roads T ks h) = map pr h.
Proof.
  intro H. induction ks as [|[i|k] ks IH]; intro h; [reflexivity|exact (IH h)|].
  cbn [set_roads fold_left]. change (fold_left _ ks ?x) with (set_roads T ks x).
  rewrite IH. apply map_upd. intro; apply H.
Qed.

Definition updated (T : place -> Z) (ks : list place) (e : eco) : eco :=
  up_e_total_agents (fun _ => sumZ (map T ks))
    (up_e_locations (set_heads T 0) (up_e_links (set_roads T ks) e)).
Lemma same_updated T ks e : e_par e = true -> Same e (updated T ks e).
Proof.
  intro A. split.
  - split; try reflexivity.
    + cbn. apply set_heads_map. reflexivity.
    + cbn. apply set_roads_map. reflexivity.
  - unfold lheads. cbn. rewrite A. apply set_heads_map. reflexivity.
  - unfold kheads. cbn. rewrite A. apply set_roads_map. reflexivity.
  - cbn. apply set_roads_map. reflexivity.
  - reflexivity.
Qed.
Lemma sk_updated T ks e : sk (updated T ks e) = up_e_total_agents (fun _ => sumZ (map T ks)) (sk e).
Proof.
  unfold sk, updated. cbn. unfold up_e_total_agents. cbn. f_equal.
  - apply set_heads_map. reflexivity.
  - apply set_roads_map. reflexivity.
Qed.

Lemma procs_nonempty n es e : Procs n es -> In e es -> forall a, In a es -> Twin a e.
Proof. intros P He a Ha. apply (pr_twin _ _ P); assumption. Qed.

Lemma update_none lat closed : update_num_agents lat closed [] = Err ValueError.
Proof. destruct lat; reflexivity. Qed.

Lemma update_ok lat closed n es es' : Procs n es -> update_num_agents lat closed es = Ok es' ->
  exists e0, In e0 es /\ es' = map (updated (total_at es) (keys closed e0)) es.
Proof.
  intros P H. destruct es as [|e0 es]; [rewrite update_none in H; discriminate|].
  exists e0. split; [now left|].
  assert (I0 : In e0 (e0 :: es)) by now left.
  rewrite (update_spec _ _ _ e0 I0 (procs_nonempty _ _ _ P I0)) in H.
  match type of H with (if ?b then _ else _) = _ => destruct b end; [|discriminate].
  injection H as <-. reflexivity.
Qed.
Lemma procs_update lat closed n es es' : Procs n es -> update_num_agents lat closed es = Ok es' -> Procs n es'.
Proof.
  intros P H. destruct (update_ok _ _ _ _ _ P H) as (e0 & _ & ->). apply procs_map; [exact P| |].
  - intros e _ A. split; [apply inv_same, same_updated, A|repeat split].
  - intros a b _ _ T. unfold Twin. rewrite !sk_updated. now rewrite T.
Qed.

Lemma procs_collective n f st st' : (forall es es', Procs n es -> f es = Ok es' -> Procs n es') ->
  Procs n (map fst st) -> collective f st = Ok st' -> Procs n (map fst st').
Proof.
  intros F P H. unfold collective in H. rstep H. injection H as <-.
  pose proof (F _ _ P E) as P'.
  replace (map fst (combine v (map snd st))) with v; [exact P'|].
  assert (L : List.length v = List.length (map snd st)).
  { rewrite (pr_len _ _ P'), map_length. rewrite <- (pr_len _ _ P), map_length. reflexivity. }
  clear - L. revert L. generalize (map snd st) as gs. induction v as [|e v IH]; intros [|g gs] L; cbn in *; try discriminate; [reflexivity|].
  f_equal. apply IH. congruence.
Qed.

Lemma procs_evolve n m lat fuel S o st st' : Procs n (map fst st) ->
  par_evolve m lat fuel S o st = Ok st' -> Procs n (map fst st').
Proof.
  intros P H. unfold par_evolve in H.
  apply bind_ok in H as (st0 & H0 & H). apply (procs_quiet n _ _ _ (quiet_first S o) P) in H0 as P0.
  apply bind_ok in H as (st1 & H1 & H).
  assert (P1 : Procs n (map fst st1)).
  { destruct m; cbn [par_scores] in H1.
    - eapply procs_quiet; [apply (quiet_update_scores S o)|exact P0|exact H1].
    - apply bind_ok in H1 as (sa & Ha & H1).
      apply (procs_quiet n _ _ _ (quiet_scores_of S o own_range) P0) in Ha.
      apply bind_ok in H1 as (sb & Hb & H1).
      apply procs_collective with (n := n) in Hb; [|intros ? ? Q [= <-]; now apply procs_synchronize|exact Ha].
      eapply procs_quiet; [apply (quiet_missing S o)|exact Hb|exact H1]. }
  apply bind_ok in H as (st2 & H2 & H).
  apply procs_collective with (n := n) in H2; [|intros; eapply procs_spawned; eauto|exact P1].
  apply bind_ok in H as (st3 & H3 & H). apply (procs_quiet n _ _ _ (quiet_evolve_agents S o) H2) in H3.
  apply bind_ok in H as (st4 & H4 & H).
  apply procs_collective with (n := n) in H4; [|intros; eapply procs_update; eauto|exact H3].
  apply bind_ok in H as (st5 & H5 & H). apply (procs_quiet n _ _ _ (quiet_finish_agents fuel S o) H4) in H5.
  apply bind_ok in H as (st6 & H6 & H). apply (procs_quiet n _ _ _ (quiet_logs S) H5) in H6.
  apply bind_ok in H as (st7 & H7 & H).
  apply procs_collective with (n := n) in H7; [|intros; eapply procs_update; eauto|exact H6].
  apply bind_ok in H as (st8 & H8 & H). apply (procs_quiet n _ _ _ (quiet_aggregate S) H7) in H8.
  apply bind_ok in H as (st9 & H9 & H). apply (procs_quiet n _ _ _ (quiet_sinks S) H8) in H9.
  apply local_forall2 in H. eapply procs_step; [exact H9|exact H| |].
  - intros e e' _ I A (g & g' & E). injection E as <- <-. split; [|repeat split].
    eapply inv_same; [apply same_time|exact I].
  - intros a a' b b' _ _ T (g & g' & E) (h & h' & F). injection E as <- <-. injection F as <- <-.
    unfold Twin. change (up_e_time (fun t => t + 1)%Z (sk a) = up_e_time (fun t => t + 1)%Z (sk b)). now rewrite T.
Qed.
