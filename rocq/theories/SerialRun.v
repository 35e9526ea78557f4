(** * SerialRun: a whole parallel program on one process *)

From Coq Require Import Lia Lqa.
From Verif Require Import Base State Moving Crawling Scoring Diagnostics Flee DataTable
  Spawning InputGeography Api Pflee ParApi SpecAgents SpecHistory SpecParallel SpecSerial Lemmas Inv InvMoves InvStruct CoreProofs
  Skeleton ParProofs ParInv ParSteps ParProps ParFinal SerialRel SerialSteps SerialEvolve.
Local Open Scope list_scope.

Lemma like_world e e' : Like e e' -> same_world e e'.
Proof.
  intros []. constructor; try assumption.
  - symmetry. eapply F2_mapeq; [exact lk_locs|]. intros l l' R. ll R. reflexivity.
  - symmetry. eapply F2_mapeq; [exact lk_links|]. intros l l' R. ks R. reflexivity.
Qed.

Lemma like_start : Like empty_eco (empty_par 0 1).
Proof. constructor; try reflexivity; constructor. Qed.

Lemma ordinary_modest S c : ordinary S c -> modest S.
Proof. intros []. repeat split; assumption. Qed.

Lemma run_app o h1 h2 e g : run o (h1 ++ h2) e g = ('(e1, g1) <- run o h1 e g ;; run o h2 e1 g1).
Proof.
  unfold run. revert e g. induction h1 as [|c h1 IH]; intros e g; [reflexivity|]. cbn [app foldM fst snd].
  destruct (step o (fst c) (snd c) e g) as [[e1 g1]|]; cbn [bind]; [apply IH|reflexivity].
Qed.
Lemma run_one o S c e g : run o [(S, c)] e g = step o S c e g.
Proof. unfold run. cbn. destruct (step o S c e g) as [[]|]; reflexivity. Qed.

Lemma local2_one {A} (f : A -> eco -> res eco) args e g st : local2 f args [(e, g)] = Ok st ->
  exists a e1, args = [a] /\ f a e = Ok e1 /\ st = [(e1, g)].
Proof.
  unfold local2. destruct args as [|a [|b args]]; cbn [List.length Nat.eqb combine mapM fst snd]; try discriminate.
  intro H. apply bind_ok in H as (p & H1 & H). injection H as <-. apply bind_ok in H1 as (e1 & F & H1). injection H1 as <-.
  exists a, e1. auto.
Qed.


Lemma local_single (f : eco -> rng -> res (eco * rng)) e g st : local f [(e, g)] = Ok st ->
  exists p, f e g = Ok p /\ st = [p].
Proof.
  unfold local. cbn [mapM fst snd]. destruct (f e g) as [p|]; cbn [bind]; intro H; [|discriminate]. injection H as <-. eauto.
Qed.

Theorem one_step o S c e e' g st : ordinary S c -> Like e e' -> Here e ->
  List.length (e_spawn_weights e) = List.length (e_locations e) ->
  pstep o S c [(e', g)] = Ok st ->
  exists e1 e1' g1, run o (map (pair S) (serial_calls S c)) e g = Ok (e1, g1) /\ st = [(e1', g1)] /\ Like e1 e1'.
Proof.
  intros OR L E W H. destruct c as [c|n r x y lt mc cap pop f cn a|args|args|locs n|lat ns|lat cl|m lat fuel]; cbn [pstep] in H.
  - destruct (inherited c) eqn:N; [|discriminate]. apply local_single in H as ([e1' g1] & H & ->).
    pose proof (like_inherited o S c e e' g L N) as B. rewrite H in B. apply both_ok_r in B as ([e1 g2] & B & [L1 G]).
    cbn [fst snd] in *. subst g2. exists e1, e1', g1. cbn [serial_calls map]. rewrite run_one. auto.
  - apply local_single in H as ([e1' g1] & H & ->). unfold par_add_location in H.
    pose proof (like_add_location S o n r x y lt (if Qltb mc 0 then s_DefaultMoveChance S else mc) cap pop f cn a e e' g L
      (or_routes _ _ OR) (or_capacity _ _ OR _ _ _ _ _ _ _ _ _ _ _ eq_refl)) as B.
    rewrite H in B. apply both_ok_r in B as ([e1 g2] & B & [L1 G]).
    cbn [fst snd] in *. subst g2. exists e1, e1', g1. cbn [serial_calls map]. rewrite run_one. auto.
  - apply local2_one in H as ([i a] & e1' & -> & H & ->). cbn [fst snd] in H.
    apply (like_add_agent _ _ _ _ _ _ L) in H as (e1 & H & L1). exists e1, e1', g. cbn [serial_calls map]. rewrite run_one.
    cbn [step]. rewrite H. auto.
  - apply local2_one in H as ([i a] & e1' & -> & H & ->). cbn [fst snd] in H.
    pose proof (like_own i a _ _ L) as B. unfold par_insert_agent in H. rewrite H in B. apply both_ok_r in B as (e1 & B & L1).
    exists e1, e1', g. cbn [serial_calls map]. rewrite run_one. cbn [step]. unfold insert_agent. rewrite B. auto.
  - apply local2_one in H as (i & e1' & -> & H & ->).
    pose proof (like_insert_many i n _ _ L) as B. rewrite H in B. apply both_ok_r in B as (e1 & B & L1).
    exists e1, e1', g. cbn [serial_calls map]. rewrite run_one. cbn [step]. rewrite B. auto.
  - exfalso. exact (or_clears _ _ OR _ _ eq_refl).
  - apply (one_update _ _ _ _ _ _ L) in H as (e1 & -> & L1). exists e, e1, g. auto.
  - apply (one_evolve _ _ _ _ _ _ _ _ _ (ordinary_modest _ _ OR) L E W) in H as (e1 & e1' & g1 & H & -> & L1 & _).
    exists e1, e1', g1. cbn [serial_calls map]. rewrite run_one. auto.
Qed.

Lemma program_app h1 h2 : serial_program (h1 ++ h2) = serial_program h1 ++ serial_program h2.
Proof. apply flat_map_app. Qed.
Lemma program_sinks h : (forall S c, In (S, c) h -> ordinary S c) ->
  Forall (fun c => s_camps_are_sinks (fst c) = false) (serial_program h).
Proof.
  intro O. apply Forall_forall. intros c I. unfold serial_program in I. apply in_flat_map in I as ([S c0] & I & J).
  cbn [fst snd] in J. apply in_map_iff in J as (d & <- & _). cbn [fst]. exact (or_sinks _ _ (O _ _ I)).
Qed.

Lemma one_run o g h : forall st, (forall S c, In (S, c) h -> ordinary S c) ->
  prun o h (pstart [g]) = Ok st ->
  exists e e' g', st = [(e', g')] /\ run o (serial_program h) empty_eco g = Ok (e, g') /\ Like e e'.
Proof.
  induction h as [|[S c] h IH] using rev_ind; intros st O H.
  - cbn in H. injection H as <-. exists empty_eco, (empty_par 0 1), g. split; [reflexivity|]. split; [reflexivity|apply like_start].
  - unfold prun in H. rewrite foldM_app in H. apply bind_ok in H as (st1 & H1 & H).
    apply IH in H1 as (e & e' & g1 & -> & R & L); [|intros; apply O, in_app_iff; auto].
    cbn [foldM fst snd] in H. apply bind_ok in H as (st2 & H & H2). injection H2 as <-.
    assert (OR : ordinary S c) by (apply O, in_app_iff; right; left; reflexivity).
    apply (one_step o S c e e' g1 st2 OR L) in H as (e1 & e1' & g2 & R1 & -> & L1).
    + exists e1, e1', g2. split; [reflexivity|]. split; [|exact L1]. rewrite program_app, run_app, R. cbn [bind].
      cbn [serial_program flat_map fst snd]. rewrite app_nil_r. exact R1.
    + intros a I. eapply no_sinks; [|exact R|exact I]. apply program_sinks. intros; apply O, in_app_iff; auto.
    + assert (I : Inv e) by (eapply reachable_inv; eexists; eexists; exact R). destruct I as [[] _]. assumption.
Qed.

Theorem f_serial o h g st : (forall S c, In (S, c) h -> ordinary S c) -> prun o h (pstart [g]) = Ok st ->
  exists e e' g', st = [(e', g')] /\ run o (serial_program h) empty_eco g = Ok (e, g') /\ same_world e e'.
Proof.
  intros O H. apply (one_run o g h st O) in H as (e & e' & g' & -> & R & L).
  exists e, e', g'. split; [reflexivity|]. split; [exact R|now apply like_world].
Qed.

Lemma how_many_same f h l : (forall a, In a l -> f a = h a) -> how_many f l = how_many h l.
Proof. intro E. unfold how_many. do 2 f_equal. apply filter_ext_in. exact E. Qed.

Lemma counts_eq (ls ls' : list location) (c : nat -> Z) : List.length ls' = List.length ls ->
  (forall i l, nth_error ls i = Some l -> l_numAgents l = c i) ->
  (forall i l, nth_error ls' i = Some l -> l_numAgents l = c i) -> map l_numAgents ls' = map l_numAgents ls.
Proof.
  revert ls' c. induction ls as [|l ls IH]; intros [|l' ls'] c N A B; try discriminate; [reflexivity|]. cbn [map].
  rewrite (A 0%nat l eq_refl), (B 0%nat l' eq_refl). f_equal.
  apply (IH ls' (fun i => c (Datatypes.S i))); [now injection N|intros i; apply (A (Datatypes.S i))|intros i; apply (B (Datatypes.S i))].
Qed.

Lemma sync_counts o g h S c st : synchronises c = true -> prun o (h ++ [(S, c)]) (pstart [g]) = Ok st ->
  forall e', In e' (map fst st) ->
    (forall i l, nth_error (e_locations e') i = Some l -> l_numAgents l = people_in st i) /\
    (forall k x, listed false e' k -> nth_error (e_links e') k = Some x -> k_numAgents x = people_on st k).
Proof.
  intros Y H e' I. unfold prun in H. rewrite foldM_app in H. apply bind_ok in H as (st1 & H1 & H).
  cbn [foldM fst snd] in H. apply bind_ok in H as (st2 & H & H2). injection H2 as <-.
  assert (P : preachable o 1 st1) by (exists h, [g]; split; [reflexivity|exact H1]).
  destruct c; try discriminate.
  - apply preachable_procs in P as P1. pose proof (pr_len _ _ (pstep_procs 1 o S _ _ _ P1 H)) as N2.
    pose proof (pr_len _ _ P1) as N1. rewrite map_length in N1, N2.
    destruct (f_update _ _ _ _ _ _ _ P H) as [_ F]. clear H H1 P P1.
    destruct st1 as [|[e0 g0] [|]]; try discriminate. destruct st2 as [|[e2 g2] [|]]; try discriminate.
    cbn in I. destruct I as [<-|[]]. destruct (F 0%nat e0 e2 eq_refl eq_refl) as (A & B & C & D).
    assert (AG : e_agents e2 = e_agents e0) by now apply (f_equal e_agents) in D.
    assert (LD : forall k, listed false e2 k -> listed closed e0 k).
    { intros k (i & l & El & J). apply (f_equal e_locations) in D. cbn [but_counts e_locations] in D.
      apply (f_equal (fun x => nth_error x i)) in D. rewrite !nth_error_map, El in D. cbn [option_map] in D.
      destruct (nth_error (e_locations e0) i) as [l0|] eqn:El0; [|discriminate]. cbn [option_map] in D. apply (f_equal (option_map l_links)) in D. cbn in D. injection D as D. exists i, l0. split; [exact El0|]. left. rewrite <- D. destruct J as [J|[J _]]; [exact J|discriminate]. }
    unfold people_in, people_on in *. cbn [map fst] in *. rewrite AG. split; [exact A|].
    intros k x K. apply B. now apply LD.
  - destruct (f_evolve _ _ _ _ _ _ _ _ P H _ I) as [A B]. split; assumption.
Qed.

Theorem f_serial_counts o h g S c st : (forall S1 c1, In (S1, c1) (h ++ [(S, c)]) -> ordinary S1 c1) -> synchronises c = true ->
  prun o (h ++ [(S, c)]) (pstart [g]) = Ok st ->
  exists e e' g', st = [(e', g')] /\ run o (serial_program (h ++ [(S, c)])) empty_eco g = Ok (e, g') /\
    map l_numAgents (e_locations e') = map l_numAgents (e_locations e) /\
    forall k x x', listed false e k -> nth_error (e_links e) k = Some x -> nth_error (e_links e') k = Some x' ->
      k_numAgents x' = k_numAgents x.
Proof.
  intros O Y H. pose proof (sync_counts _ _ _ _ _ _ Y H) as C.
  apply (one_run o g _ st O) in H as (e & e' & g' & -> & R & L). exists e, e', g'. split; [reflexivity|]. split; [exact R|].
  destruct (C e' (or_introl eq_refl)) as [A B]. unfold people_in, people_on in *. cbn [map fst] in *. rewrite (lk_agents _ _ L) in *.
  assert (RC : reachable o e g') by (eexists; eexists; exact R).
  assert (HE : forall a, In a (e_agents e) -> deactivated a = false).
  { intros a I. eapply no_sinks; [|exact R|exact I]. apply program_sinks. exact O. }
  split.
  - apply counts_eq with (c := fun i => how_many (in_location i) (e_agents e)).
    + symmetry. generalize (lk_locs _ _ L). clear. induction 1; cbn; congruence.
    + intros i l El. destruct (location_counts _ _ _ RC i l El) as [-> _]. apply how_many_same. intros a I. specialize (HE a I).
      unfold in_location, left_from, deactivated in *. destruct (a_location a); try discriminate; now rewrite ?orb_false_r.
    + intros i l El. rewrite (A i l El). cbn. lia.
  - intros k x x' J X X'. rewrite (proj1 (link_counts _ _ _ RC k x X)). rewrite (B k x'); [cbn; lia| |exact X'].
    destruct J as (i & l & El & J). destruct (Forall2_nth _ _ _ i l (lk_locs _ _ L) El) as (l' & El' & R').
    exists i, l'. split; [exact El'|]. left. destruct J as [J|[J _]]; [|discriminate]. ll R'. exact J.
Qed.
