(** * StepRel: a relation kept by the building blocks of the API is kept by every call *)

From Coq Require Import Lia.
From Verif Require Import Base State Moving Crawling Scoring Diagnostics Flee DataTable
  Spawning InputGeography Api SpecAgents SpecHistory Lemmas Inv InvMoves InvStruct Frames.

Section StepRel.
  Context (R : eco -> eco -> Prop).
  Hypothesis Rrefl : forall e, R e e.
  Hypothesis Rtrans : forall a b c, R a b -> R b c -> R a c.
  Hypothesis Rstill : forall e e', Still e e' -> R e e'.
  Hypothesis Rloc : forall S o n r x y lt mc cap pop f c at_ e g e' g',
    add_location S o n r x y lt mc cap pop f c at_ e g = Ok (e', g') -> R e e'.
  Hypothesis Rlink : forall n1 n2 d f at_ e e', link_up n1 n2 d f at_ e = Ok e' -> R e e'.
  Hypothesis Rappend : forall i at_ e e', append_agent i at_ e = Ok e' -> R e e'.
  Hypothesis Rclear : forall ns e e', clear_locations ns e = Ok e' -> R e e'.
  Hypothesis Rremove : forall s t co e e' b, remove_link_1way s t co e = Ok (e', b) -> R e e'.
  Hypothesis Rreopen : forall s t e e' b, reopen_link_1way s t e = Ok (e', b) -> R e e'.

  Lemma rel_add_agent S i at_ e e' : add_agent S i at_ e = Ok e' -> R e e'.
  Proof.
    unfold add_agent; intro H; rstep H. cbv zeta in H. apply Rappend in H.
    eapply Rtrans; [|exact H]. destruct (s_TakeFromPopulation S); [|apply Rrefl].
    apply Rstill, still_up_loc; intro l; destruct (0 <? l_pop l)%Z; reflexivity.
  Qed.
  Lemma rel_spawn_one S dm t i e g e' g' : spawn_one S dm t i (e, g) = Ok (e', g') -> R e e'.
  Proof.
    unfold spawn_one; intros H. do 2 rstep H. destruct v0. rstep H. rinv H.
    destruct t; [eapply rel_add_agent | eapply Rappend]; eauto.
  Qed.
  Lemma rel_foldM2 {A B} (f : eco * B -> A -> res (eco * B)) l e g e' g' :
    (forall e1 g1 a e2 g2, f (e1, g1) a = Ok (e2, g2) -> R e1 e2) ->
    foldM f l (e, g) = Ok (e', g') -> R e e'.
  Proof.
    intros Hf H. eapply (foldM_rel (fun s s' => R (fst s) (fst s'))) in H; [exact H|auto|eauto|].
    intros [e1 g1] a [e2 g2] _ Hs. cbn. eapply Hf; eauto.
  Qed.
  Lemma rel_spawns {A} S dm t (f : A -> nat) l e g e' g' :
    foldM (fun st a => spawn_one S dm t (f a) st) l (e, g) = Ok (e', g') -> R e e'.
  Proof. apply rel_foldM2. intros; eapply rel_spawn_one; eauto. Qed.
  Lemma rel_spawn_loop S dm num e g n e' g' : spawn_loop S dm num e g = Ok (n, e', g') -> R e e'.
  Proof.
    unfold spawn_loop; intros H.
    eapply (foldM_rel (fun s s' => R (snd (fst s)) (snd (fst s')))) in H; [exact H|auto|eauto|].
    intros [[t1 e1] g1] i [[t2 e2] g2] _ H1. cbn [fst snd] in *. do 2 rstep H1. destruct v0.
    rstep H1. destruct v0. rinv H1. eapply (rel_spawns S dm _ (fun _ => _)); eauto.
  Qed.
  Lemma rel_close s t e e' b : close_link s t false e = Ok (e', b) -> R e e'.
  Proof. apply Rremove. Qed.
  Lemma rel_reopen s t e e' b : reopen_link s t false e = Ok (e', b) -> R e e'.
  Proof. apply Rreopen. Qed.

  Theorem step_rel o S c e g e' g' : is_evolve c = false -> step o S c e g = Ok (e', g') -> R e e'.
  Proof.
    intros Nev H. destruct c; try discriminate; cbn [step] in H;
      try (rstep H; rinv H);
      try match goal with E : rmap fst _ = Ok _ |- _ =>
            let P := fresh in apply rmap_ok in E as ([? ?] & P & ->); cbn [fst] end.
    - eapply Rloc; eauto.
    - eapply Rlink; eauto.
    - eapply Rstill, still_set_attr; eauto.
    - eapply rel_add_agent; eauto.
    - eapply Rappend; eauto.
    - eapply (foldM_rel R) in E; [exact E|auto|eauto|].
      intros; eapply Rappend; eauto.
    - eapply Rclear; eauto.
    - destruct twoway; eapply Rremove; eauto.
    - destruct twoway; eapply Rreopen; eauto.
    - eapply (change_location_rel R); eauto using rel_close, rel_reopen.
    - eapply (change_location_rel R); eauto using rel_close, rel_reopen.
    - eapply (change_border_rel R); eauto using rel_close, rel_reopen.
    - eapply (change_border_rel R); eauto using rel_close, rel_reopen.
    - eapply Rstill, still_close_camp; eauto.
    - eapply Rstill, still_open_camp; eauto.
    - eapply Rstill, still_change_location_type; eauto.
    - eapply Rstill, still_set_forced; eauto.
    - rinv H. eapply Rstill, still_closures; eauto.
    - eapply (enact_rel R); eauto using rel_close, rel_reopen.
    - eapply Rstill, still_refresh; eauto.
    - eapply Rstill, still_add_conflict; eauto.
    - eapply Rstill, still_remove_conflict; eauto.
    - eapply Rstill, still_set_intensity; eauto.
    - unfold add_initial_refugees in H. rstep H; [rinv H; auto|]. do 4 rstep H.
      eapply (rel_spawns S dm _ (fun _ => _)); eauto.
    - unfold spawn_daily_displaced in E.
      rstep E; [|rstep E]; [rstep E; destruct v as [[? ?] ?]; rinv E; eapply rel_spawn_loop; eauto..|].
      rstep E. destruct v. rstep E. destruct v. cbv zeta in E.
      match type of E with (let (_, _) := ?x in _) = _ => destruct x end.
      rstep E. destruct v. rstep E. destruct v. rinv E.
      eapply Rtrans; [|eapply (rel_spawns S dm true (fun i => i)); eassumption].
      destruct (_ && _)%bool; auto. apply Rstill, still_reduce.
    - unfold read_agents in E. rstep E. destruct v as [[? ?] ?]. rinv E.
      eapply (foldM_rel (fun s s' => R (snd s) (snd s'))) in E0; [exact E0|auto|eauto|].
      intros [[f h] e1] r [[f2 h2] e2] _ H1. unfold read_agent_row in H1. cbn [snd] in *.
      rstep H1. rstep H1; [rinv H1; auto|]. rstep H1; [rinv H1; auto|]. do 3 rstep H1. rinv H1.
      match goal with E : foldM _ _ _ = Ok _ |- _ =>
        eapply (foldM_rel R) in E; [exact E|auto|eauto|] end.
      intros e3 i e4 _ H3. rstep H3. rstep H3; [eapply rel_add_agent; eauto | rinv H3; auto].
    - eapply (store_input_rel R); [..|eassumption]; eauto.
    - eapply Rstill, still_update_attributes; eauto.
    - eapply Rstill, still_add_new_conflict_zones; eauto.
  Qed.
End StepRel.
