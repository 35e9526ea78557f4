(** * ParCounts: head counts in parallel programs *)

From Coq Require Import Lia Permutation.
From Verif Require Import Base State Moving Crawling Scoring Diagnostics Flee DataTable
  Spawning InputGeography Api Pflee ParApi SpecAgents SpecHistory SpecParallel Lemmas Inv InvMoves InvStruct Frames
  ScoreFrames Travel Profile ReportProofs Skeleton ParProofs ParInv ParSteps ParProps.
Local Open Scope list_scope.

(** ** Agents that the calls leave alone *)

Definition SameAgents (e e' : eco) : Prop := e_agents e' = e_agents e.
Lemma sa_refl e : SameAgents e e. Proof. reflexivity. Qed.
Lemma sa_trans a b c : SameAgents a b -> SameAgents b c -> SameAgents a c.
Proof. unfold SameAgents; congruence. Qed.
Lemma sa_still e e' : Still e e' -> SameAgents e e'.
Proof. intros [[[]]]; assumption. Qed.
#[local] Hint Resolve sa_refl sa_still : core.

Lemma sa_add_location S o n r x y lt mc cap pop f c at_ e g e' g' :
  add_location S o n r x y lt mc cap pop f c at_ e g = Ok (e', g') -> SameAgents e e'.
Proof.
  unfold add_location; intro H.
  rstep H. rstep H. cbv zeta in H. do 2 rstep H. destruct v1. rstep H. rinv H.
  assert (Q0 : SameAgents e a) by (destruct at_; inversion Heqp; subst; reflexivity).
  eapply sa_trans; [exact Q0|]. eapply sa_trans; [|eapply sa_still, still_refresh; eauto].
  apply still_updateLocationScore, sa_still in E1. exact E1.
Qed.
Lemma sa_link_up n1 n2 d f at_ e e' : link_up n1 n2 d f at_ e = Ok e' -> SameAgents e e'.
Proof.
  intro H. apply link_up_spec in H as (i1 & i2 & e0 & did & _ & _ & _ & _ & C & ->).
  destruct C as [(-> & -> & ->)|(a & -> & -> & ->)]; reflexivity.
Qed.
Lemma sa_remove_1way s t co e e' b : remove_link_1way s t co e = Ok (e', b) -> SameAgents e e'.
Proof.
  unfold remove_link_1way; intro H. rstep H. rstep H. destruct v0 as [[e1 l] r]. rinv H.
  apply sa_trans with e1; [|reflexivity].
  eapply (foldM_rel (fun s s' => SameAgents (fst (fst s)) (fst (fst s')))) in E0;
    [exact E0|auto|eauto using sa_trans|].
  intros [[e2 l2] r2] ki [[e3 l3] r3] _ Hs. unfold remove_step in Hs. cbn [fst].
  rinv Hs; auto. reflexivity.
Qed.
Lemma sa_reopen_1way s t e e' b : reopen_link_1way s t e = Ok (e', b) -> SameAgents e e'.
Proof.
  unfold reopen_link_1way; intro H. rstep H. rstep H. destruct v0 as [[e1 l] r]. rinv H.
  apply sa_trans with e1; [|reflexivity].
  eapply (foldM_rel (fun s s' => SameAgents (fst (fst s)) (fst (fst s')))) in E0;
    [exact E0|auto|eauto using sa_trans|].
  intros [[e2 l2] r2] ki [[e3 l3] r3] _ Hs. unfold reopen_step in Hs. cbn [fst].
  rinv Hs; auto. reflexivity.
Qed.
Lemma sa_close s t e e' b : close_link s t false e = Ok (e', b) -> SameAgents e e'.
Proof. apply sa_remove_1way. Qed.
Lemma sa_reopen s t e e' b : reopen_link s t false e = Ok (e', b) -> SameAgents e e'.
Proof. apply sa_reopen_1way. Qed.

Lemma sa_step o S c e g e' g' : inherited c = true -> step o S c e g = Ok (e', g') -> SameAgents e e'.
Proof.
  intros N H. destruct c; try discriminate; cbn [step] in H;
    try (rstep H; rinv H);
    try match goal with E : rmap fst _ = Ok _ |- _ =>
          let P := fresh in apply rmap_ok in E as ([? ?] & P & ->); cbn [fst] end.
  - eapply sa_link_up; eauto.
  - eapply sa_still, still_set_attr; eauto.
  - destruct twoway; eapply sa_remove_1way; eauto.
  - destruct twoway; eapply sa_reopen_1way; eauto.
  - eapply (change_location_rel SameAgents); eauto using sa_trans, sa_close, sa_reopen.
  - eapply (change_location_rel SameAgents); eauto using sa_trans, sa_close, sa_reopen.
  - eapply (change_border_rel SameAgents); eauto using sa_trans, sa_close, sa_reopen.
  - eapply (change_border_rel SameAgents); eauto using sa_trans, sa_close, sa_reopen.
  - eapply sa_still, still_close_camp; eauto.
  - eapply sa_still, still_open_camp; eauto.
  - eapply sa_still, still_change_location_type; eauto.
  - eapply sa_still, still_set_forced; eauto.
  - rinv H. eapply sa_still, still_closures; eauto.
  - eapply (enact_rel SameAgents); eauto using sa_trans, sa_close, sa_reopen.
  - eapply sa_still, still_refresh; eauto.
  - eapply sa_still, still_add_conflict; eauto.
  - eapply sa_still, still_remove_conflict; eauto.
  - eapply sa_still, still_set_intensity; eauto.
  - eapply sa_still, still_update_attributes; eauto.
  - eapply sa_still, still_add_new_conflict_zones; eauto.
Qed.

(** ** evolve: the agents of every process stay, one step older *)

Definition V (e : eco) := map tview (e_agents e).
Definition ptick (v : nat * dict * Z * option nat) :=
  let '(h, at_, t, g) := v in (h, at_, (t + 1)%Z, g).

Lemma local_view f st st' (u : list (nat * dict * Z * option nat) -> list (nat * dict * Z * option nat)) :
  (forall e g e' g', f e g = Ok (e', g') -> V e' = u (V e)) -> local f st = Ok st' ->
  map V (map fst st') = map u (map V (map fst st)).
Proof.
  intros F H. apply local_forall2 in H. induction H as [|e e' l l' (g & g' & E) _ IH]; [reflexivity|].
  cbn [map]. rewrite IH. f_equal. eapply F; eauto.
Qed.
Lemma local_view0 f st st' : (forall e g e' g', f e g = Ok (e', g') -> V e' = V e) -> local f st = Ok st' ->
  map V (map fst st') = map V (map fst st).
Proof. intros F H. rewrite (local_view f st st' (fun v => v) F H). apply map_id. Qed.

Lemma combine_fst {A B} (l : list A) (m : list B) : List.length l = List.length m -> map fst (combine l m) = l.
Proof. revert m; induction l; intros [|b m] H; try discriminate; cbn; [reflexivity|]. f_equal; auto. Qed.
Lemma combine_snd {A B} (l : list A) (m : list B) : List.length l = List.length m -> map snd (combine l m) = m.
Proof. revert m; induction l; intros [|b m] H; try discriminate; cbn; [reflexivity|]. f_equal; auto. Qed.

Lemma collective_map (f : list eco -> res (list eco)) st st' :
  collective f st = Ok st' -> (forall es', f (map fst st) = Ok es' -> List.length es' = List.length st) ->
  f (map fst st) = Ok (map fst st') /\ map snd st' = map snd st.
Proof.
  unfold collective. intros H L. apply bind_ok in H as (es & H & [= <-]).
  assert (Hl : List.length es = List.length (map snd st)) by (rewrite map_length; auto).
  rewrite combine_fst, combine_snd by exact Hl. auto.
Qed.

Lemma updated_view T ks e : V (updated T ks e) = V e. Proof. reflexivity. Qed.

Lemma update_step n lat closed st st' : Procs n (map fst st) -> collective (update_num_agents lat closed) st = Ok st' ->
  exists e0, In e0 (map fst st) /\
  map fst st' = map (updated (total_at (map fst st)) (keys closed e0)) (map fst st) /\ map snd st' = map snd st.
Proof.
  intros P H. apply collective_map in H as [H Hs].
  - destruct (update_ok _ _ _ _ _ P H) as (e0 & I & E). eauto.
  - intros es' H'. destruct (update_ok _ _ _ _ _ P H') as (e0 & I & ->). now rewrite !map_length.
Qed.
Lemma update_view n lat closed st st' : Procs n (map fst st) -> collective (update_num_agents lat closed) st = Ok st' ->
  map V (map fst st') = map V (map fst st).
Proof.
  intros P H. destruct (update_step _ _ _ _ _ P H) as (e0 & _ & -> & _). rewrite map_map. apply map_ext. reflexivity.
Qed.

Lemma finish_view fuel S o e g e' g' : par_finish_agents fuel S o e g = Ok (e', g') -> V e' = map ptick (V e).
Proof.
  unfold par_finish_agents; intro H.
  eapply (foldM_view _ (fun s => V (fst s)) (fun v i => upd i ptick v)) in H.
  - cbn [fst] in H. unfold V in *. rewrite <- (map_length tview (e_agents e)) in H. rewrite H. exact (fold_upd_seq ptick (map tview (e_agents e)) []).
  - intros [e1 g1] ai [e2 g2] _ H1. cbn [fst]. rstep H1. destruct v as [e3 g3]. injection H1 as <- <-.
    apply turn_finish_travel in E as [_ _ E]. unfold V. cbn. 
    rewrite <- E. generalize (e_agents e3) as l. clear. intro l. revert ai. induction l as [|a l IH]; intros [|ai]; cbn; auto.
    now rewrite IH.
Qed.

Lemma scores_of_view S o (f : eco -> list nat) e g e' g' : update_scores_of S o (f e) e g = Ok (e', g') -> V e' = V e.
Proof.
  unfold update_scores_of; intro H. eapply (turn_foldM2 _ _ _ _ _ _) in H; [apply t_view in H; exact H|].
  cbv beta iota. intros; eapply turn_still, still_updateLocationScore; eauto.
Qed.
Lemma first_view S o e g e' g' : first_scores S o e g = Ok (e', g') -> V e' = V e.
Proof.
  unfold first_scores; intro H. destruct (e_time e =? 0)%Z; [|now injection H as <- <-].
  eapply (foldM_rel (fun a b => V (fst b) = V (fst a))) in H; [exact H|reflexivity|intros; congruence|].
  intros [e1 g1] a [e2 g2] _ Hs; cbn [fst] in *. exact (scores_of_view S o own_round_robin e1 g1 e2 g2 Hs).
Qed.
Lemma missing_view S o e g e' g' : missing_routes S o e g = Ok (e', g') -> V e' = V e.
Proof.
  unfold missing_routes; intro H. destruct (s_FixedRoutes S); [|now injection H as <- <-].
  eapply (foldM_rel (fun a b => V (fst b) = V (fst a))) in H; [exact H|reflexivity|intros; congruence|].
  intros [e1 g1] a [e2 g2] _ Hs; cbn [fst] in *. rstep Hs. destruct (l_routes v); [|now injection Hs as <- <-].
  apply still_generate, turn_still, t_view in Hs. exact Hs.
Qed.
Lemma par_scores_view n m S o st st' : Procs n (map fst st) -> par_scores m S o st = Ok st' ->
  map V (map fst st') = map V (map fst st).
Proof.
  intros P H. destruct m; cbn [par_scores] in H.
  - eapply local_view0; [|exact H]. intros e g e' g' F. apply still_update_scores, turn_still, t_view in F. exact F.
  - apply bind_ok in H as (sa & Ha & H). apply bind_ok in H as (sb & Hb & H).
    apply (local_view0 _ _ _ (missing_view S o)) in H. rewrite H.
    apply (local_view0 _ _ _ (fun e g e' g' F => scores_of_view S o own_range e g e' g' F)) in Ha. rewrite <- Ha.
    apply collective_map in Hb as [Hb _].
    + injection Hb as Hb. unfold synchronize in Hb. rewrite <- Hb, map_map. apply map_ext. reflexivity.
    + intros es' [= <-]. unfold synchronize. now rewrite !map_length.
Qed.
Lemma evolve_agents_view S o e g e' g' : par_evolve_agents S o e g = Ok (e', g') -> V e' = V e.
Proof.
  unfold par_evolve_agents; intro H. eapply (turn_foldM2 _ _ _ _ _ _) in H; [apply t_view in H; exact H|].
  cbv beta iota. intros; eapply turn_person_evolve; eauto.
Qed.
Lemma logs_view S e g e' g' : par_logs S e g = Ok (e', g') -> V e' = V e.
Proof.
  unfold par_logs; intro H. do 3 rstep H. injection H as <- <-.
  apply turn_update_recent, t_view in E1. unfold V. rewrite E1.
  assert (A : Turn v v0) by (destruct (0 <? s_log_link S)%Z; [eapply turn_still, still_write_links; eauto|injection E0 as <-; apply turn_refl]).
  assert (B : Turn e v) by (destruct (0 <? s_log_agent S)%Z; [eapply turn_still, still_write_agents; eauto|injection E as <-; apply turn_refl]).
  rewrite (t_view _ _ A). apply (t_view _ _ B).
Qed.

(** The last part of [evolve] *)
Definition Counted (e e' : eco) : Prop :=
  e_agents e' = e_agents e /\ map l_numAgents (e_locations e') = map l_numAgents (e_locations e) /\
  map k_numAgents (e_links e') = map k_numAgents (e_links e) /\ e_total_agents e' = e_total_agents e /\
  map lk (e_locations e') = map lk (e_locations e) /\ e_links e' = e_links e /\ e_closures e' = e_closures e.

Lemma evolve_parts n m lat fuel S o st st' : Procs n (map fst st) -> par_evolve m lat fuel S o st = Ok st' ->
  exists st6 st7, Procs n (map fst st6) /\ collective (update_num_agents lat false) st6 = Ok st7 /\
    map V (map fst st6) = map (map ptick) (map V (map fst st)) /\
    Forall2 (fun e e' => Counted e e' /\ e_time e' = (e_time e + 1)%Z) (map fst st7) (map fst st').
Proof.
  intros P H. unfold par_evolve in H.
  apply bind_ok in H as (st0 & H0 & H). apply (procs_quiet n _ _ _ (quiet_first S o) P) in H0 as P0.
  apply (local_view0 _ _ _ (first_view S o)) in H0.
  apply bind_ok in H as (st1 & H1 & H).
  assert (P1 : Procs n (map fst st1)).
  { destruct m; cbn [par_scores] in H1.
    - eapply procs_quiet; [apply (quiet_update_scores S o)|exact P0|exact H1].
    - apply bind_ok in H1 as (sa & Ha & H1).
      apply (procs_quiet n _ _ _ (quiet_scores_of S o own_range) P0) in Ha.
      apply bind_ok in H1 as (sb & Hb & H1).
      apply procs_collective with (n := n) in Hb; [|intros ? ? Q [= <-]; now apply procs_synchronize|exact Ha].
      eapply procs_quiet; [apply (quiet_missing S o)|exact Hb|exact H1]. }
  apply (par_scores_view n _ _ _ _ _ P0) in H1.
  apply bind_ok in H as (st2 & H2 & H).
  apply procs_collective with (n := n) in H2 as P2; [|intros; eapply procs_spawned; eauto|exact P1].
  apply collective_map in H2 as [H2 _].
  2:{ intros es' F. unfold sync_spawned in F. apply bind_ok in F as (ts & _ & [= <-]). now rewrite !map_length. }
  assert (V2 : map V (map fst st2) = map V (map fst st1)).
  { unfold sync_spawned in H2. apply bind_ok in H2 as (ts & _ & H2). injection H2 as H2. rewrite <- H2, map_map. now apply map_ext. }
  apply bind_ok in H as (st3 & H3 & H). apply (procs_quiet n _ _ _ (quiet_evolve_agents S o) P2) in H3 as P3.
  apply (local_view0 _ _ _ (evolve_agents_view S o)) in H3.
  apply bind_ok in H as (st4 & H4 & H).
  apply procs_collective with (n := n) in H4 as P4; [|intros; eapply procs_update; eauto|exact P3].
  apply (update_view _ _ _ _ _ P3) in H4.
  apply bind_ok in H as (st5 & H5 & H). apply (procs_quiet n _ _ _ (quiet_finish_agents fuel S o) P4) in H5 as P5.
  apply (local_view _ _ _ _ (finish_view fuel S o)) in H5.
  apply bind_ok in H as (st6 & H6 & H). apply (procs_quiet n _ _ _ (quiet_logs S) P5) in H6 as P6.
  apply (local_view0 _ _ _ (logs_view S)) in H6.
  apply bind_ok in H as (st7 & H7 & H). exists st6, st7. split; [exact P6|]. split; [exact H7|]. split; [congruence|].
  apply bind_ok in H as (st8 & H8 & H). apply bind_ok in H as (st9 & H9 & H).
  apply local_forall2 in H8, H9, H. clear -H8 H9 H.
  revert H9 H. generalize (map fst st') as l'. generalize (map fst st9) as l9. 
  induction H8 as [|e e1 l l1 (g & g' & E) _ IH]; intros l9 l' H9 H.
  - inversion H9; subst. inversion H; subst. constructor.
  - inversion H9 as [|? e2 ? l2 (h & h' & E2) F2]; subst. inversion H as [|? e3 ? l3 (k & k' & E3) F3]; subst.
    constructor; [|eapply IH; eauto].
    injection E as <- <-. injection E3 as <- <-.
    assert (e2 = aggregate_arrivals S e) as ->.
    { unfold par_sinks in E2. destruct (s_camps_are_sinks S); [rstep E2|]; now injection E2 as <- <-. }
    unfold aggregate_arrivals. destruct (0 <? s_log_camp S)%Z; [|repeat split].
    split; [|reflexivity]. unfold Counted. cbn. rewrite !map_map. repeat split.
    + apply map_ext. intro l0. now destruct (l_camp l0).
    + apply map_ext. intro l0. now destruct (l_camp l0).
Qed.

(** ** Nobody is deactivated in a parallel run *)

Definition Alive (es : list eco) : Prop :=
  forall e a, In e es -> In a (e_agents e) -> deactivated a = false.
Definition alive_view (vs : list (list (nat * dict * Z * option nat))) : Prop :=
  forall l v, In l vs -> In v l -> snd v = None.

Lemma alive_iff es : Alive es <-> alive_view (map V es).
Proof.
  split.
  - intros A l v Hl Hv. apply in_map_iff in Hl as (e & <- & He). apply in_map_iff in Hv as (a & <- & Ha).
    specialize (A e a He Ha). unfold deactivated in A. unfold tview, gone_of. cbn. now destruct (a_location a).
  - intros A e a He Ha. specialize (A (V e) (tview a) (in_map _ _ _ He) (in_map _ _ _ Ha)).
    unfold tview, gone_of in A. cbn in A. unfold deactivated. now destruct (a_location a).
Qed.
Lemma alive_tick vs : alive_view vs -> alive_view (map (map ptick) vs).
Proof.
  intros A l v Hl Hv. apply in_map_iff in Hl as (l0 & <- & Hl). apply in_map_iff in Hv as ([[[h a] t] g] & <- & Hv).
  exact (A _ _ Hl Hv).
Qed.

Lemma alive_rel es es' (R : eco -> eco -> Prop) : Alive es -> Forall2 R es es' ->
  (forall e e', In e es -> R e e' -> forall a, In a (e_agents e') -> In a (e_agents e) \/ deactivated a = false) -> Alive es'.
Proof.
  intros A F H e' a He Ha. apply In_nth_error in He as [i He].
  destruct (Forall2_nth_inv _ _ _ _ _ F He) as (e & He0 & Re). apply nth_error_In in He0.
  destruct (H _ _ He0 Re _ Ha); [eauto|assumption].
Qed.

Lemma clear_subset names e e' : par_clear_local names e = Ok e' -> incl (e_agents e') (e_agents e).
Proof.
  unfold par_clear_local; intro H. rstep H. destruct v as [e1 kept]. injection H as <-. cbn.
  assert (W : forall l e kept e1 kept1,
    foldM (fun st a => let '(e1, kept) := st in n <- pos_name e1 (a_location a) ;;
             if mem_str n names then e2 <- dec_on_rank (a_location a) e1 ;; Ok (e2, kept)
             else Ok (e1, kept ++ [a])) l (e, kept) = Ok (e1, kept1) -> incl kept1 (kept ++ l)).
  { clear. induction l as [|a l IH]; intros e kept e1 kept1 H.
    - injection H as <- <-. rewrite app_nil_r. apply incl_refl.
    - cbn [foldM] in H. rstep H. cbv beta iota in E. rstep E. destruct (mem_str v0 names).
      + rstep E. injection E as <-. apply IH in H. intros x Hx. apply H in Hx. apply in_app_iff in Hx. apply in_app_iff. cbn. tauto.
      + injection E as <-. apply IH in H. now rewrite <- app_assoc in H. }
  apply W in E. exact E.
Qed.

Lemma collective_clear lat names st st' : collective (par_clear_locations lat names) st = Ok st' ->
  exists es, mapM (par_clear_local names) (map fst st) = Ok es /\
    collective (update_num_agents lat false) (combine es (map snd st)) = Ok st'.
Proof.
  unfold collective, par_clear_locations. intro H. apply bind_ok in H as (es' & H & [= <-]).
  apply bind_ok in H as (es & H1 & H2). exists es. split; [exact H1|].
  assert (L : List.length es = List.length (map snd st)).
  { apply mapM_Forall2, Forall2_len in H1. rewrite map_length in *. congruence. }
  rewrite combine_fst, combine_snd, H2 by exact L. reflexivity.
Qed.

Lemma clear_procs n names es es' : Procs n es -> mapM (par_clear_local names) es = Ok es' -> Procs n es'.
Proof.
  intros Q E0. apply mapM_Forall2 in E0.
  assert (Pa : forall e, In e es -> e_par e = true).
  { intros e He. apply In_nth_error in He as [r He]. apply (pr_each _ _ Q _ _ He). }
  eapply (procs_step n es es' (fun e e' => In e es /\ par_clear_local names e = Ok e')); [exact Q| | |].
  - assert (W : forall l m, incl l es -> Forall2 (fun e e' => par_clear_local names e = Ok e') l m ->
      Forall2 (fun e e' => In e es /\ par_clear_local names e = Ok e') l m).
    { clear. intros l m Hi. induction 1; constructor; [split; [apply Hi; now left|assumption]|].
      apply IHForall2. intros x' Hx; apply Hi; now right. }
    apply W; [apply incl_refl|exact E0].
  - intros e e' _ I A [_ C]. apply par_clear_spec in C as [C1 C2]; [|exact A]. split; [auto|now apply meta_fx].
  - intros a a' b b' _ _ T [Ia Ca] [Ib Cb].
    eapply twin_fx; [exact T|eapply par_clear_spec; eauto|eapply par_clear_spec; eauto].
Qed.

Lemma alive_pstep n o S c st st' : Procs n (map fst st) -> Alive (map fst st) ->
  pstep o S c st = Ok st' -> Alive (map fst st').
Proof.
  intros P A H. destruct c; cbn [pstep] in H.
  - destruct (inherited c) eqn:Hc; [|discriminate]. apply local_forall2 in H. eapply alive_rel; [exact A|exact H|].
    intros e e' _ (g & g' & E) a Ha. apply sa_step in E; [|exact Hc]. left. now rewrite E in Ha.
  - apply local_forall2 in H. eapply alive_rel; [exact A|exact H|].
    intros e e' _ (g & g' & E) a Ha. apply sa_add_location in E. left. now rewrite E in Ha.
  - apply local2_rel in H. eapply alive_rel; [exact A|exact H|].
    intros e e' _ (x & E) a Ha. apply par_add_spec in E as (_ & _ & _ & G). rewrite G in Ha.
    apply in_app_iff in Ha as [Ha|Ha]; [now left|]. right. destruct (_ =? _)%Z; [|easy]. destruct Ha as [<-|[]]. reflexivity.
  - apply local2_rel in H. eapply alive_rel; [exact A|exact H|].
    intros e e' _ (x & E) a Ha. apply par_own_spec in E as (_ & _ & _ & G). rewrite G in Ha.
    apply in_app_iff in Ha as [Ha|Ha]; [now left|]. right. destruct (_ =? _)%Z; [|easy]. destruct Ha as [<-|[]]. reflexivity.
  - apply local2_rel in H. eapply alive_rel; [exact A|exact H|].
    intros e e' _ (x & E) a Ha. apply par_insert_many_spec in E as (_ & _ & _ & G). rewrite G in Ha.
    apply in_app_iff in Ha as [Ha|Ha]; [now left|]. right. apply repeat_spec in Ha. now subst.
  - apply collective_clear in H as (es & H1 & H2). pose proof (clear_procs _ _ _ _ P H1) as P1.
    assert (L : List.length es = List.length (map snd st)).
    { apply mapM_Forall2, Forall2_len in H1. rewrite map_length in *. congruence. }
    assert (A1 : Alive es).
    { apply mapM_Forall2 in H1. eapply alive_rel; [exact A|exact H1|].
      intros e e' _ E a Ha. left. exact (clear_subset names e e' E a Ha). }
    rewrite <- (combine_fst es (map snd st) L) in P1, A1.
    apply (update_view n _ _ _ _ P1) in H2. apply alive_iff. rewrite H2. now apply alive_iff.
  - apply (update_view n _ _ _ _ P) in H. apply alive_iff. rewrite H. now apply alive_iff.
  - destruct (evolve_parts _ _ _ _ _ _ _ _ P H) as (st6 & st7 & P6 & H7 & V6 & F).
    assert (A7 : Alive (map fst st7)).
    { apply alive_iff. rewrite (update_view _ _ _ _ _ P6 H7), V6. apply alive_tick. now apply alive_iff. }
    eapply alive_rel; [exact A7|exact F|]. intros e e' _ [[E _] _] a Ha. left. now rewrite E in Ha.
Qed.

Lemma alive_prun n o h : forall st st', Procs n (map fst st) -> Alive (map fst st) -> prun o h st = Ok st' -> Alive (map fst st').
Proof.
  induction h as [|[S c] h IH]; intros st st' P A H; [now injection H as <-|].
  unfold prun in H. cbn [foldM fst snd] in H. apply bind_ok in H as (st1 & H1 & H).
  eapply IH; [eapply pstep_procs; eauto|eapply alive_pstep; eauto|exact H].
Qed.
Lemma alive_start gs : Alive (map fst (pstart gs)).
Proof.
  intros e a He Ha. apply in_map_iff in He as ([e1 g] & <- & He). apply in_combine_l in He.
  apply in_map_iff in He as (r & <- & _). destruct Ha.
Qed.
Lemma preachable_alive o n st : preachable o n st -> Alive (map fst st).
Proof.
  intros (h & gs & L & H). eapply alive_prun; [apply procs_start|apply alive_start|exact H].
Qed.

(** ** Head counts are sums *)

Lemma on_rank_loc e i l : Inv e -> e_par e = true -> (forall a, In a (e_agents e) -> deactivated a = false) ->
  nth_error (e_locations e) i = Some l -> on_rank e (AtLoc i) = how_many (in_location i) (e_agents e).
Proof.
  intros I A D E. cbn [on_rank]. rewrite E.
  rewrite (i_lcount _ I i (l_numAgentsOnRank l)).
  - unfold countZ, how_many. f_equal. f_equal. apply filter_ext_in. intros a Ha. unfold stays, left_from.
    specialize (D a Ha). unfold deactivated in D. destruct (a_location a); try discriminate; apply orb_false_r.
  - unfold lheads. rewrite nth_error_map, E, A. reflexivity.
Qed.
Lemma on_rank_road e k x : Inv e -> e_par e = true ->
  nth_error (e_links e) k = Some x -> on_rank e (AtRoad k) = how_many (on_link k) (e_agents e).
Proof.
  intros I A E. cbn [on_rank]. rewrite E. rewrite (i_kcount _ I k (k_numAgentsOnRank x)); [reflexivity|].
  unfold kheads. rewrite nth_error_map, E, A. reflexivity.
Qed.
Lemma twin_nth_loc a b i l : Twin a b -> nth_error (e_locations a) i = Some l -> exists m, nth_error (e_locations b) i = Some m.
Proof.
  intros T E. destruct (nth_error (e_locations b) i) eqn:F; [eauto|]. apply nth_error_None in F.
  rewrite <- (twin_len_locs _ _ T) in F. apply nth_error_None in F. congruence.
Qed.
Lemma twin_nth_link a b i l : Twin a b -> nth_error (e_links a) i = Some l -> exists m, nth_error (e_links b) i = Some m.
Proof.
  intros T E. destruct (nth_error (e_links b) i) eqn:F; [eauto|]. apply nth_error_None in F.
  rewrite <- (twin_len_links _ _ T) in F. apply nth_error_None in F. congruence.
Qed.

Lemma total_loc n st e i l : Procs n (map fst st) -> Alive (map fst st) -> In e (map fst st) ->
  nth_error (e_locations e) i = Some l -> total_at (map fst st) (AtLoc i) = people_in st i.
Proof.
  intros P A He E. unfold total_at, people_in. rewrite map_map. apply sumZ_ext. intros [b g] Hb. cbn [fst].
  assert (Ib : In b (map fst st)) by (apply in_map_iff; exists (b, g); auto).
  destruct (twin_nth_loc _ _ _ _ (pr_twin _ _ P e b He Ib) E) as [m Em].
  apply In_nth_error in Ib as Ib'. destruct Ib' as [r Hr]. destruct (pr_each _ _ P _ _ Hr) as (I & Pa & _).
  eapply on_rank_loc; eauto.
Qed.
Lemma total_road n st e k x : Procs n (map fst st) -> In e (map fst st) ->
  nth_error (e_links e) k = Some x -> total_at (map fst st) (AtRoad k) = people_on st k.
Proof.
  intros P He E. unfold total_at, people_on. rewrite map_map. apply sumZ_ext. intros [b g] Hb. cbn [fst].
  assert (Ib : In b (map fst st)) by (apply in_map_iff; exists (b, g); auto).
  destruct (twin_nth_link _ _ _ _ (pr_twin _ _ P e b He Ib) E) as [m Em].
  apply In_nth_error in Ib as Ib'. destruct Ib' as [r Hr]. destruct (pr_each _ _ P _ _ Hr) as (I & Pa & _).
  eapply on_rank_road; eauto.
Qed.

Lemma in_keys_from closed k ls : forall i,
  In (AtRoad k) (keys_from closed i ls) <-> exists l, In l ls /\ In k (l_links l ++ (if closed then l_closed_links l else [])).
Proof.
  induction ls as [|l ls IH]; intro i; cbn [keys_from].
  - split; [easy|]. intros (? & [] & _).
  - cbn [In]. rewrite in_app_iff, IH. unfold keys_of. rewrite in_map_iff. split.
    + intros [H|[(x & [= ->] & H)|(m & Hm & H)]]; [discriminate|exists l; split; [now left|exact H]|exists m; split; [now right|exact H]].
    + intros (m & [->|Hm] & H); [right; left; eauto|right; right; eauto].
Qed.
Lemma in_keys closed k e : In (AtRoad k) (keys closed e) <-> listed closed e k.
Proof.
  unfold keys. rewrite in_keys_from. unfold listed. split.
  - intros (l & Hl & Hk). apply In_nth_error in Hl as [i Hi]. exists i, l. split; [exact Hi|].
    apply in_app_iff in Hk as [Hk|Hk]; [now left|]. destruct closed; [right; auto|destruct Hk].
  - intros (i & l & Hl & Hk). exists l. split; [eapply nth_error_In; eauto|]. apply in_app_iff.
    destruct Hk as [Hk|[-> Hk]]; auto.
Qed.
Lemma existsb_key k ks : existsb (fun p => match p with AtRoad j => Nat.eqb j k | _ => false end) ks = true <-> In (AtRoad k) ks.
Proof.
  rewrite existsb_exists. split.
  - intros ([i|j] & Hp & E); [discriminate|]. apply Nat.eqb_eq in E. now subst.
  - intro H. exists (AtRoad k). split; [exact H|apply Nat.eqb_refl].
Qed.
Lemma listed_twin closed a b k : Twin a b -> listed closed a k -> listed closed b k.
Proof. intros T H. apply in_keys. apply in_keys in H. now rewrite <- (twin_keys closed _ _ T). Qed.

Lemma but_counts_updated T ks e : but_counts (updated T ks e) = but_counts e.
Proof.
  unfold but_counts.
  assert (L : map no_count (e_locations (updated T ks e)) = map no_count (e_locations e)) by (apply set_heads_map; reflexivity).
  assert (K : map no_kcount (e_links (updated T ks e)) = map no_kcount (e_links e)) by (apply set_roads_map; reflexivity).
  rewrite L, K. reflexivity.
Qed.
(** What every process sees after [updateNumAgents] *)
Lemma update_counts n lat closed st st' : Procs n (map fst st) -> Alive (map fst st) ->
  collective (update_num_agents lat closed) st = Ok st' ->
  map snd st' = map snd st /\
  forall r e e', nth_error (map fst st) r = Some e -> nth_error (map fst st') r = Some e' ->
    (forall i l', nth_error (e_locations e') i = Some l' -> l_numAgents l' = people_in st i) /\
    (forall k x', listed closed e k -> nth_error (e_links e') k = Some x' -> k_numAgents x' = people_on st k) /\
    (forall k, ~ listed closed e k -> nth_error (e_links e') k = nth_error (e_links e) k) /\
    but_counts e' = but_counts e.
Proof.
  intros P A H. destruct (update_step _ _ _ _ _ P H) as (e0 & I0 & Hf & Hs). split; [exact Hs|].
  intros r e e' E E'. rewrite Hf, nth_error_map, E in E'. injection E' as <-.
  assert (Ie : In e (map fst st)) by (eapply nth_error_In; eauto).
  assert (T : Twin e0 e) by (apply (pr_twin _ _ P); assumption).
  split; [|split; [|split]].
  - intros i l' Hl. cbn in Hl. rewrite nth_set_heads in Hl. destruct (nth_error (e_locations e) i) as [l|] eqn:El; [|discriminate].
    injection Hl as <-. cbn. eapply total_loc; eauto.
  - intros k x' L Hk. cbn in Hk. rewrite nth_set_roads in Hk. destruct (nth_error (e_links e) k) as [x|] eqn:Ek; [|discriminate].
    injection Hk as <-.
    assert (X : In (AtRoad k) (keys closed e0)) by (apply in_keys; eapply listed_twin; [symmetry; exact T|exact L]).
    rewrite (proj2 (existsb_key k _) X). cbn. eapply total_road; eauto.
  - intros k L. cbn. rewrite nth_set_roads. destruct (nth_error (e_links e) k) as [x|] eqn:Ek; [|reflexivity]. cbn.
    destruct (existsb _ _) eqn:X; [|reflexivity]. exfalso. apply L. apply existsb_key, in_keys in X. eapply listed_twin; eauto.
  - apply but_counts_updated.
Qed.

Lemma listed_lk closed a b k : map lk (e_locations a) = map lk (e_locations b) -> listed closed a k -> listed closed b k.
Proof.
  intros H (i & l & Hl & Hk). destruct (map_eq_nth _ _ _ _ i l (eq_sym H) Hl) as (m & Hm & E).
  exists i, m. split; [exact Hm|]. unfold lk in E. injection E as _ E1 E2 _. now rewrite E1, E2.
Qed.
Lemma people_in_lists st i : people_in st i = sumZ (map (how_many (in_location i)) (map e_agents (map fst st))).
Proof. unfold people_in. now rewrite !map_map. Qed.
Lemma people_on_lists st i : people_on st i = sumZ (map (how_many (on_link i)) (map e_agents (map fst st))).
Proof. unfold people_on. now rewrite !map_map. Qed.
(** What every process sees after [evolve] *)
Lemma evolve_counts n m lat fuel S o st st' : Procs n (map fst st) -> Alive (map fst st) ->
  par_evolve m lat fuel S o st = Ok st' ->
  forall r e', nth_error (map fst st') r = Some e' ->
    (forall i l', nth_error (e_locations e') i = Some l' -> l_numAgents l' = people_in st' i) /\
    (forall k x', listed false e' k -> nth_error (e_links e') k = Some x' -> k_numAgents x' = people_on st' k).
Proof.
  intros P A H r e' E'. destruct (evolve_parts _ _ _ _ _ _ _ _ P H) as (st6 & st7 & P6 & H7 & V6 & F).
  assert (A6 : Alive (map fst st6)) by (apply alive_iff; rewrite V6; apply alive_tick; now apply alive_iff).
  destruct (update_counts _ _ _ _ _ P6 A6 H7) as [_ U].
  destruct (Forall2_nth_inv _ _ _ _ _ F E') as (e7 & E7 & (C1 & C2 & C3 & _ & C5 & _) & _).
  assert (Same7 : map e_agents (map fst st') = map e_agents (map fst st7)).
  { clear -F. induction F as [|? ? ? ? [[E _] _] _ IH]; [reflexivity|]. cbn. now rewrite E, IH. }
  destruct (update_step _ _ _ _ _ P6 H7) as (e0 & _ & Hf & _).
  assert (Same6 : map e_agents (map fst st7) = map e_agents (map fst st6)).
  { rewrite Hf, map_map. now apply map_ext. }
  assert (Pi : forall i, people_in st' i = people_in st6 i).
  { intro i. rewrite !people_in_lists. now rewrite Same7, Same6. }
  assert (Po : forall i, people_on st' i = people_on st6 i).
  { intro i. rewrite !people_on_lists. now rewrite Same7, Same6. }
  rewrite Hf, nth_error_map in E7. destruct (nth_error (map fst st6) r) as [e6|] eqn:E6; [|discriminate]. 
  assert (E7' : nth_error (map fst st7) r = Some e7) by (rewrite Hf, nth_error_map, E6; exact E7).
  destruct (U r e6 e7 E6 E7') as (U1 & U2 & _).
  split.
  - intros i l' Hl. rewrite Pi.
    destruct (map_eq_nth _ _ _ _ i l' (eq_sym C2) Hl) as (l7 & El7 & Q). rewrite <- Q. now apply U1 with (i := i).
  - intros k x' L Hk. rewrite Po.
    destruct (map_eq_nth _ _ _ _ k x' (eq_sym C3) Hk) as (x7 & Ex7 & Q). rewrite <- Q. apply U2 with (k := k); [|exact Ex7].
    injection E7 as E7. eapply listed_lk; [|exact L]. rewrite C5, <- E7. apply set_heads_map. reflexivity.
Qed.
