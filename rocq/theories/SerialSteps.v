(** * SerialSteps: the calls that serial and parallel programs share, on related states *)

From Coq Require Import Lia Lqa.
From Verif Require Import Base State Moving Crawling Scoring Diagnostics Flee DataTable
  Spawning InputGeography Api Pflee ParApi Lemmas SerialRel.
Local Open Scope list_scope.

Ltac bsame := eapply both_impl; [|apply both_eq]; cbn; intros; subst.

(** ** Setting a field *)

Lemma ll_camp f l l' : Ll l l' -> Ll (up_l_camp f l) (up_l_camp f l').
Proof. intro R. ll R. llgoal. Qed.
Lemma ll_idpcamp f l l' : Ll l l' -> Ll (up_l_idpcamp f l) (up_l_idpcamp f l').
Proof. intro R. ll R. llgoal. Qed.
Lemma ll_town f l l' : Ll l l' -> Ll (up_l_town f l) (up_l_town f l').
Proof. intro R. ll R. llgoal. Qed.
Lemma ll_forward f l l' : Ll l l' -> Ll (up_l_forward f l) (up_l_forward f l').
Proof. intro R. ll R. llgoal. Qed.
Lemma ll_marker f l l' : Ll l l' -> Ll (up_l_marker f l) (up_l_marker f l').
Proof. intro R. ll R. llgoal. Qed.
Lemma ll_flood_zone f l l' : Ll l l' -> Ll (up_l_flood_zone f l) (up_l_flood_zone f l').
Proof. intro R. ll R. llgoal. Qed.
Lemma ll_conflict f l l' : Ll l l' -> Ll (up_l_conflict f l) (up_l_conflict f l').
Proof. intro R. ll R. llgoal. Qed.
Lemma ll_movechance f l l' : Ll l l' -> Ll (up_l_movechance f l) (up_l_movechance f l').
Proof. intro R. ll R. llgoal. Qed.
Lemma ll_time_of_conflict f l l' : Ll l l' -> Ll (up_l_time_of_conflict f l) (up_l_time_of_conflict f l').
Proof. intro R. ll R. llgoal. Qed.
Lemma ll_pop f l l' : Ll l l' -> Ll (up_l_pop f l) (up_l_pop f l').
Proof. intro R. ll R. llgoal. Qed.
Lemma ll_score0 f l l' : Ll l l' -> Ll (up_l_score0 f l) (up_l_score0 f l').
Proof. intro R. ll R. llgoal. Qed.
Lemma ll_score1 f l l' : Ll l l' -> Ll (up_l_score1 f l) (up_l_score1 f l').
Proof. intro R. ll R. llgoal. Qed.
Lemma ll_incoming_journey_lengths f l l' : Ll l l' -> Ll (up_l_incoming_journey_lengths f l) (up_l_incoming_journey_lengths f l').
Proof. intro R. ll R. llgoal. Qed.
Lemma ll_closed_links f l l' : Ll l l' -> Ll (up_l_closed_links f l) (up_l_closed_links f l').
Proof. intro R. ll R. llgoal. Qed.
Lemma ll_links f l l' : Ll l l' -> Ll (up_l_links f l) (up_l_links f l').
Proof. intro R. ll R. llgoal. Qed.
Ltac lls := repeat first [assumption
  | apply ll_camp | apply ll_idpcamp | apply ll_town | apply ll_forward | apply ll_marker | apply ll_flood_zone
  | apply ll_conflict | apply ll_movechance | apply ll_time_of_conflict | apply ll_pop | apply ll_score0 | apply ll_score1].

(** ** Movement *)

Lemma ll_add p q d l l' : Ll l l' -> Ll (loc_add p d l) (loc_add q d l').
Proof. intro R. ll R. destruct p, q; llgoal. Qed.
Lemma lk_dec p q k k' : Lk k k' -> Lk (link_dec p k) (link_dec q k').
Proof. intro R. ks R. destruct p, q; kgoal. Qed.
Lemma lk_inc S p q at_ k k' : Lk k k' -> both Lk (link_inc S p at_ k) (link_inc S q at_ k').
Proof.
  intro R. unfold link_inc. destruct (1 <? _)%Z.
  - eapply both_bind with (R := eq).
    + apply both_of_eq. ks R. destruct p, q; reflexivity.
    + intros t ? <-. cbn. ks R. destruct p, q; kgoal.
  - ks R. destruct p, q; kgoal.
Qed.

Lemma like_dec p e e' : Like e e' -> both Like (dec_at p e) (dec_at p e').
Proof.
  intro L. destruct p; cbn [dec_at]; [| |exact I].
  - lstep L. cbn. apply like_up_loc; auto. intros. now apply ll_add.
  - lstep L. cbn. apply like_up_link; auto. intros. now apply lk_dec.
Qed.
Lemma like_inc S at_ p e e' : Like e e' -> both Like (inc_at S at_ p e) (inc_at S at_ p e').
Proof.
  intro L. destruct p; cbn [inc_at]; [| |exact I].
  - lstep L. cbn. apply like_up_loc; auto. intros. now apply ll_add.
  - lstep L. eapply both_bind; [now apply lk_inc|]. intros k1 k2 R. cbn. now apply like_up_link2.
Qed.

Lemma like_travel S ai p b e e' : Like e e' -> both Like (handle_travel S ai p b e) (handle_travel S ai p b e').
Proof.
  intro L. unfold handle_travel. rewrite (like_agent _ _ ai L). vstep.
  eapply both_bind; [now apply like_dec|]. intros e1 e1' L1. cbv zeta.
  eapply both_bind; [apply like_inc; now apply like_up_agent|]. intros e2 e2' L2. cbn. now apply like_up_agent.
Qed.

Lemma like_full S dest e e' : Like e e' -> (0 <= s_CapacityScaling S)%Q -> forall names i,
  both eq (dest_is_full_camp S e dest i names) (dest_is_full_camp S e' dest i names).
Proof.
  intros L Sc. induction names as [|n names IH]; intro i; [exact I|]. cbn [dest_is_full_camp].
  destruct (rtok_is _ _); [|apply IH]. lstep L. rewrite (like_cap _ _ _ H Sc).
  assert (X : l_camp b = l_camp a) by (ll H; reflexivity). rewrite X. apply both_eq.
Qed.
Lemma like_next S e e' r : Like e e' -> (0 <= s_CapacityScaling S)%Q -> forall ks,
  both eq (take_next_step S e r ks) (take_next_step S e' r ks).
Proof.
  intros L Sc. induction ks as [|k ks IH]; [reflexivity|]. cbn [take_next_step].
  lstep L. lstep L. destruct r as [[|r0 rest]|]; try exact I.
  assert (Q : lname b0 = lname a0) by (ll H0; reflexivity). rewrite Q.
  destruct (rtok_is _ _); [|apply IH]. rewrite (lk_names _ _ L).
  eapply both_bind; [now apply like_full|]. intros f ? <-. apply both_eq.
Qed.

Definition plain (S : settings) : Prop :=
  s_FixedRoutes S = false /\ (0 <= s_CapacityScaling S)%Q.

Lemma like_person S o t fc ai e e' g : Like e e' -> plain S ->
  both LikeG (person_evolve S o t fc ai e g) (person_evolve S o t fc ai e' g).
Proof.
  intros L [Fx Sc]. unfold person_evolve. rewrite (like_agent _ _ ai L). vstep.
  destruct (a_travelling a); [cbn; split; auto|].
  destruct (a_location a) as [i| |]; [|exact I..]. lstep L. rename a0 into l, b into l', H into R.
  rewrite (like_movechance S o _ _ a _ _ fc t L R). vstep. rename a0 into mc.
  destruct (rng_u g) as [u g1]. destruct (Qltb u mc); [|cbn; split; auto].
  assert (Ql : l_links l' = l_links l) by (ll R; reflexivity). rewrite Ql.
  eapply both_bind.
  { instantiate (1 := eq). destruct (a_route a) as [[|]|]; [now apply like_route|apply both_eq|exact I]. }
  intros [r g2] ? <-. eapply both_bind; [now apply like_next|]. intros [dest rest] ? <-. cbv zeta.
  destruct dest as [ki|].
  - eapply both_bind; [apply like_travel; now apply like_up_agent|]. intros. cbn. split; auto.
  - cbn. split; auto. now apply like_up_agent.
Qed.

Lemma like_speed S e e' a k k' g : Like e e' -> Lk k k' -> travel_speed S e' a k' g = travel_speed S e a k g.
Proof. intros L R. unfold travel_speed. now rewrite (like_kattrs _ _ _ _ L R). Qed.

Lemma like_finish fuel S o t ai : plain S -> forall e e' g, Like e e' ->
  both LikeG (finish_travel fuel S o t ai e g) (finish_travel fuel S o t ai e' g).
Proof.
  intro Pl. induction fuel as [|fuel IH]; intros e e' g L; cbn [finish_travel].
  - rewrite (like_agent _ _ ai L). vstep. destruct (negb _); [cbn; split; auto|exact I].
  - rewrite (like_agent _ _ ai L). vstep. destruct (negb _); [cbn; split; auto|].
    destruct (a_location a) as [|ki|]; [exact I| |exact I]. lstep L. rename a0 into k, b into k', H into R.
    rewrite (like_speed S _ _ a _ _ g L R). vstep. destruct a0 as [sp g1]. cbv zeta.
    assert (Qd : k_distance k' = k_distance k) by (ks R; reflexivity).
    assert (Qc : k_closed k' = k_closed k) by (ks R; reflexivity).
    assert (Qs : k_startpoint k' = k_startpoint k) by (ks R; reflexivity).
    assert (Qe : k_endpoint k' = k_endpoint k) by (ks R; reflexivity).
    rewrite Qd, Qc, Qs, Qe.
    destruct (Qltb (k_distance k) _); [|cbn; split; auto; now apply like_up_agent].
    destruct (k_closed k).
    + eapply both_bind; [apply like_travel; now do 2 apply like_up_agent|]. intros. cbn. split; auto.
    + eapply both_bind.
      { apply like_travel. destruct (_ && _)%bool; now repeat apply like_up_agent. }
      intros e4 e4' L4. lstep L4. rename a0 into ep, b into ep', H into Rp.
      assert (Qp : l_camp ep' = l_camp ep) by (ll Rp; reflexivity). rewrite Qp.
      set (e5 := if (_ && l_camp ep)%bool then _ else e4). set (e5' := if (_ && l_camp ep)%bool then _ else e4').
      assert (L5 : Like e5 e5').
      { unfold e5, e5'. destruct (_ && l_camp ep)%bool; [|exact L4]. apply like_up_loc; auto. intros; now apply ll_incoming_journey_lengths. }
      clearbody e5 e5'. destruct (Qltb _ sp); [|cbn; split; auto].
      vstep. cbv zeta. eapply both_bind; [now apply like_person|]. intros [e6 g2] [e6' g2'] [L6 G]. cbn in L6, G. subst g2'.
      now apply IH.
Qed.

(** ** Links *)

Definition Like3 (p q : eco * list nat * bool) : Prop :=
  Like (fst (fst p)) (fst (fst q)) /\ snd (fst p) = snd (fst q) /\ snd p = snd q.

Lemma like_remove_step x ep co p q ki : Like3 p q -> both Like3 (remove_step x ep co p ki) (remove_step x ep co q ki).
Proof.
  destruct p as [[e ks] b], q as [[e' ks'] b']. intros (L & Q1 & Q2). cbn in L, Q1, Q2. subst ks' b'. unfold remove_step.
  lstep L. lstep L. rename a into k, b0 into k', a0 into l, b1 into l', H into R, H0 into Rl.
  assert (Q : l_name l' = l_name l) by (ll Rl; reflexivity). rewrite Q.
  destruct (negb _); [split; [exact L|split; reflexivity]|]. destruct co; [|split; [exact L|split; reflexivity]].
  cbn [both]. rewrite (like_nlinks _ _ L). split; [cbn [fst]|split; reflexivity].
  apply like_up_loc; [|intros; now apply ll_closed_links]. apply like_app_links.
  - apply like_up_link; auto. intros ? ? R2. ks R2. kgoal.
  - ks R. kgoal.
Qed.
Lemma like_reopen_step x ep p q ki : Like3 p q -> both Like3 (reopen_step x ep p ki) (reopen_step x ep q ki).
Proof.
  destruct p as [[e ks] b], q as [[e' ks'] b']. intros (L & Q1 & Q2). cbn in L, Q1, Q2. subst ks' b'. unfold reopen_step.
  lstep L. lstep L. rename a into k, b0 into k', a0 into l, b1 into l', H into R, H0 into Rl.
  assert (Q : l_name l' = l_name l) by (ll Rl; reflexivity). rewrite Q.
  destruct (negb _); (split; [|split; reflexivity]); cbn [fst]; [exact L|].
  apply like_up_link; [|intros ? ? R2; ks R2; kgoal]. apply like_up_loc; auto. intros; now apply ll_links.
Qed.
Lemma like_remove_1way s t co e e' : Like e e' -> both LikeB (remove_link_1way s t co e) (remove_link_1way s t co e').
Proof.
  intro L. unfold remove_link_1way. rewrite (like_convert _ _ s L). cbv zeta. lstep L.
  assert (Q : l_links b = l_links a) by (ll H; reflexivity). rewrite Q.
  eapply both_bind.
  - apply both_foldM with (R := Like3); [intros; now apply like_remove_step|split; [exact L|split; reflexivity]].
  - intros [[e1 ks] r] [[e1' ks'] r'] (L1 & Q1 & Q2). cbn in L1, Q1, Q2. subst. cbn. split; auto.
    apply like_up_loc; auto. intros; now apply ll_links.
Qed.
Lemma like_reopen_1way s t e e' : Like e e' -> both LikeB (reopen_link_1way s t e) (reopen_link_1way s t e').
Proof.
  intro L. unfold reopen_link_1way. rewrite (like_convert _ _ s L). cbv zeta. lstep L.
  assert (Q : l_closed_links b = l_closed_links a) by (ll H; reflexivity). rewrite Q.
  eapply both_bind.
  - apply both_foldM with (R := Like3); [intros; now apply like_reopen_step|split; [exact L|split; reflexivity]].
  - intros [[e1 ks] r] [[e1' ks'] r'] (L1 & Q1 & Q2). cbn in L1, Q1, Q2. subst. cbn. split; auto.
    apply like_up_loc; auto. intros; now apply ll_closed_links.
Qed.
Lemma like_remove s t tw co e e' : Like e e' -> both LikeB (remove_link s t tw co e) (remove_link s t tw co e').
Proof. intro L. unfold remove_link. destruct tw; now apply like_remove_1way. Qed.
Lemma like_reopen s t tw e e' : Like e e' -> both LikeB (reopen_link s t tw e) (reopen_link s t tw e').
Proof. intro L. unfold reopen_link. destruct tw; now apply like_reopen_1way. Qed.

Lemma like_location_loop fuel m d i ni : forall ls j e e', Like e e' ->
  both Like (change_location_loop fuel m d i ni ls j e) (change_location_loop fuel m d i ni ls j e').
Proof.
  induction fuel as [|fuel IH]; intros ls j e e' L; cbn [change_location_loop]; (destruct (nth_error ls j) as [ki|]; [|exact L]).
  { exact I. }
  lstep L. lstep L. rename a into k, b into k', a0 into l, b0 into l', H into R, H0 into Rl.
  assert (Q : l_name l' = l_name l) by (ll Rl; reflexivity). rewrite Q. cbv zeta. destruct m.
  - eapply both_bind with (R := Like).
    { destruct d; [|exact L|]; (eapply both_bind; [apply like_remove; exact L|]; intros [? ?] [? ?] [L1 _]; exact L1). }
    intros e1 e1' L1. destruct d; [now apply IH| |];
      (eapply both_bind; [apply like_remove; exact L1|]; intros [e2 c] [e2' c'] [L2 Qc]; cbn in L2, Qc; subst c';
       destruct c; [|now apply IH]; lstep L2;
       assert (Ql : l_links b = l_links a) by (ll H; reflexivity); rewrite Ql; now apply IH).
  - eapply both_bind with (R := Like).
    { destruct d; [|exact L|]; (eapply both_bind; [apply like_reopen; exact L|]; intros [? ?] [? ?] [L1 _]; exact L1). }
    intros e1 e1' L1. destruct d; [now apply IH| |];
      (eapply both_bind; [apply like_reopen; exact L1|]; intros [e2 c] [e2' c'] [L2 Qc]; cbn in L2, Qc; subst c';
       destruct c; [|now apply IH]; lstep L2;
       assert (Ql : l_closed_links b = l_closed_links a) by (ll H; reflexivity); rewrite Ql; now apply IH).
Qed.
Lemma like_location fuel n m d e e' : Like e e' ->
  both LikeB (change_location_1way fuel n m d e) (change_location_1way fuel n m d e').
Proof.
  intro L. unfold change_location_1way. rewrite (lk_names _ _ L). apply both_foldM; [|split; auto].
  intros [e1 c] [e1' c'] i _ [L1 Qc]. cbn in L1, Qc. subst c'. rewrite (lk_names _ _ L1). vstep.
  destruct (String.eqb _ _); [|cbn; split; auto]. lstep L1.
  assert (Ql : l_closed_links b = l_closed_links a0) by (ll H; reflexivity).
  assert (Qk : l_links b = l_links a0) by (ll H; reflexivity). rewrite Ql, Qk. cbv zeta.
  eapply both_bind; [now apply like_location_loop|]. intros. cbn. split; auto.
Qed.

Lemma like_border_loop fuel dest m i ni : forall ls j e e', Like e e' ->
  both Like (change_border_loop fuel dest m i ni ls j e) (change_border_loop fuel dest m i ni ls j e').
Proof.
  induction fuel as [|fuel IH]; intros ls j e e' L; cbn [change_border_loop]; (destruct (nth_error ls j) as [ki|]; [|exact L]).
  { exact I. }
  lstep L. lstep L. rename a into k, b into k', a0 into l, b0 into l', H into R, H0 into Rl.
  assert (Q : l_name l' = l_name l) by (ll Rl; reflexivity). assert (Qc : l_country l' = l_country l) by (ll Rl; reflexivity).
  rewrite Q, Qc. destruct (String.eqb _ _); [|now apply IH].
  eapply both_bind with (R := LikeB); [destruct m; [now apply like_remove|now apply like_reopen]|].
  intros [e1 c] [e1' c'] [L1 X]. cbn in L1, X. subst c'. destruct c; [|now apply IH]. lstep L1.
  assert (Ql : l_closed_links b = l_closed_links a) by (ll H; reflexivity).
  assert (Qk : l_links b = l_links a) by (ll H; reflexivity). rewrite Ql, Qk. now apply IH.
Qed.
Lemma like_border_1way fuel s d m e e' : Like e e' ->
  both Like (change_border_1way fuel s d m e) (change_border_1way fuel s d m e').
Proof.
  intro L. unfold change_border_1way. rewrite (lk_names _ _ L). apply both_foldM; [|exact L].
  intros e1 e1' i _ L1. lstep L1.
  assert (Qc : l_country b = l_country a) by (ll H; reflexivity).
  assert (Ql : l_closed_links b = l_closed_links a) by (ll H; reflexivity).
  assert (Qk : l_links b = l_links a) by (ll H; reflexivity). rewrite Qc, Ql, Qk.
  destruct (String.eqb _ _); [|exact L1]. rewrite (lk_names _ _ L1). vstep. now apply like_border_loop.
Qed.
Lemma like_border fuel s d tw m e e' : Like e e' -> both Like (change_border fuel s d tw m e) (change_border fuel s d tw m e').
Proof.
  intro L. unfold change_border. eapply both_bind; [now apply like_border_1way|]. intros.
  destruct tw; [now apply like_border_1way|assumption].
Qed.

(** ** Types of places *)

Lemma like_named n f e e' : Like e e' -> (forall l l', Ll l l' -> Ll (f l) (f l')) ->
  both Like (on_named_loc n f e) (on_named_loc n f e').
Proof.
  intros L H. unfold on_named_loc. rewrite (like_convert _ _ n L). cbv zeta. lstep L. cbn. now apply like_up_loc.
Qed.
Lemma like_close_camp S n i e e' : Like e e' -> both Like (close_camp S n i e) (close_camp S n i e').
Proof.
  intro L. apply like_named; auto. intros l l' R. unfold loc_close_camp, set_movechance, set_conflict, set_type_flags. lls.
Qed.
Lemma like_open_camp S n i e e' : Like e e' -> both Like (open_camp S n i e) (open_camp S n i e').
Proof.
  intro L. apply like_named; auto. intros l l' R. unfold loc_open_camp, set_movechance, set_conflict. destruct i; lls.
Qed.
Lemma like_change_type S n t e e' : Like e e' -> both Like (change_location_type S n t e) (change_location_type S n t e').
Proof.
  intro L. unfold change_location_type; cbv zeta.
  repeat match goal with |- both _ (if ?b then _ else _) _ => destruct b end;
    unfold set_movechance, set_conflict, set_type_flags;
    try (apply like_named; [exact L|]; intros l l' R; try destruct (str_in _ _); lls);
    (eapply both_bind; [apply like_named; [exact L|]; intros l l' R; lls|intros; exact I]).
Qed.
Lemma like_forced n m v e e' : Like e e' -> both Like (set_forced_redirection n m v e) (set_forced_redirection n m v e').
Proof.
  intro L. unfold set_forced_redirection. rewrite (like_convert _ _ n L). lstep L.
  assert (Q : l_links b = l_links a) by (ll H; reflexivity). rewrite Q.
  apply both_foldM; [|exact L]. intros e1 e1' k _ L1. lstep L1. lstep L1.
  assert (Qn : lname b1 = lname a1) by (ll H1; reflexivity). rewrite Qn.
  destruct (String.eqb _ _); [|exact L1]. cbn. apply like_up_link; auto. intros ? ? R. ks R. kgoal.
Qed.

Lemma like_rmap {T} (x y : res (eco * T)) : both LikeB x y -> both Like (rmap fst x) (rmap fst y).
Proof. apply both_rmap. intros ? ? [L _]. exact L. Qed.

Lemma like_enact fuel S t tw e e' : Like e e' ->
  both Like (enact_border_closures fuel S t tw e) (enact_border_closures fuel S t tw e').
Proof.
  intro L. unfold enact_border_closures. rewrite (lk_closures _ _ L). apply both_foldM; [|exact L].
  intros e1 e1' c _ L1. unfold enact_one. eapply both_bind with (R := Like).
  - destruct (_ =? _)%Z; [|exact L1]. unfold enact_close.
    repeat match goal with |- both _ (if ?b then _ else _) _ => destruct b end;
      [now apply like_border|apply like_rmap; now apply like_location|apply like_rmap; now apply like_remove
      |now apply like_close_camp|now apply like_close_camp|now apply like_forced|exact L1].
  - clear e1 e1' L1. intros e1 e1' L1. destruct (_ =? _)%Z; [|exact L1]. unfold enact_open.
    repeat match goal with |- both _ (if ?b then _ else _) _ => destruct b end;
      [now apply like_border|apply like_rmap; now apply like_location|apply like_rmap; now apply like_reopen
      |now apply like_open_camp|now apply like_open_camp|now apply like_forced|exact L1].
Qed.

(** ** Conflicts and spawn weights *)

Lemma like_weights_all S e e' : Like e e' ->
  both eq (mapM (spawn_weight S (e_time e)) (e_locations e)) (mapM (spawn_weight S (e_time e')) (e_locations e')).
Proof.
  intro L. rewrite (lk_time _ _ L). eapply both_impl; [|apply both_mapM with (Q := Ll) (R := eq); [apply (lk_locs _ _ L)|]].
  - intros a b F. induction F; congruence.
  - intros l l' R. apply both_of_eq. ll R. reflexivity.
Qed.
Lemma like_refresh S e e' : Like e e' -> both Like (refresh_spawn_weights S e) (refresh_spawn_weights S e').
Proof.
  intro L. unfold refresh_spawn_weights. eapply both_bind; [now apply like_weights_all|]. intros ws ? <-.
  rewrite (lk_weights _ _ L). destruct (_ <? _)%nat; [exact I|]. cbn.
  apply like_up_weights; auto. rewrite !app_length, !skipn_length. now rewrite (lk_weights _ _ L).
Qed.
Lemma like_add_conflict S n q c e e' : Like e e' -> both Like (add_conflict_zone S n q c e) (add_conflict_zone S n q c e').
Proof.
  intro L. unfold add_conflict_zone. rewrite (lk_names _ _ L). destruct (first_index _ _ _); [|exact L].
  lstep L. rewrite (lk_time _ _ L). apply like_refresh. apply like_up_loc; auto.
  intros l l' R. unfold set_movechance, set_conflict. destruct c; lls.
Qed.
Lemma like_remove_conflict S n c e e' : Like e e' -> both Like (remove_conflict_zone S n c e) (remove_conflict_zone S n c e').
Proof.
  intro L. unfold remove_conflict_zone. rewrite (lk_names _ _ L). eapply both_bind with (R := Like); [|intros; now apply like_refresh].
  apply both_foldM; [|exact L]. intros e1 e1' i _ L1. rewrite (lk_names _ _ L1). vstep.
  destruct (String.eqb _ _); [|exact L1]. lstep L1. cbn. apply like_up_loc; auto.
  intros l l' R. unfold set_movechance, set_conflict. destruct c; lls.
Qed.
Lemma like_intensity S n q c e e' : Like e e' ->
  both Like (set_conflict_intensity S n q c e) (set_conflict_intensity S n q c e').
Proof.
  intro L. unfold set_conflict_intensity. destruct (Qltb _ _); [now apply like_remove_conflict|now apply like_add_conflict].
Qed.

(** ** Building *)

Lemma like_set_attr i k v e e' : Like e e' -> both Like (set_loc_attribute i k v e) (set_loc_attribute i k v e').
Proof.
  intro L. unfold set_loc_attribute. lstep L. rewrite (like_attrs _ _ _ _ L H). vstep. cbn.
  assert (Q : l_attributes b = l_attributes a) by (ll H; reflexivity). rewrite Q. now apply like_up_dicts.
Qed.
Lemma like_link_up n1 n2 d f at_ e e' : Like e e' -> both Like (link_up n1 n2 d f at_ e) (link_up n1 n2 d f at_ e').
Proof.
  intro L. unfold link_up. rewrite (lk_names _ _ L). cbv zeta.
  destruct (last_index _ _ _ _) as [i1|]; [|exact I]. destruct (last_index n2 _ _ _) as [i2|]; [|exact I].
  lstep L. lstep L.
  assert (W : forall e0 e0' did, Like e0 e0' -> both Like
    (Ok (up_loc i2 (up_l_links (fun ks => ks ++ [Datatypes.S (List.length (e_links e0))]))
            (up_e_links (fun h => h ++ [Link i2 i1 false d 0 0 0 false did []])
              (up_loc i1 (up_l_links (fun ks => ks ++ [List.length (e_links e0)]))
                (up_e_links (fun h => h ++ [Link i1 i2 false d 0 0 0 f did []]) e0)))))
    (Ok (up_loc i2 (up_l_links (fun ks => ks ++ [Datatypes.S (List.length (e_links e0'))]))
            (up_e_links (fun h => h ++ [Link i2 i1 false d 0 0 0 false did []])
              (up_loc i1 (up_l_links (fun ks => ks ++ [List.length (e_links e0')]))
                (up_e_links (fun h => h ++ [Link i1 i2 false d 0 0 0 f did []]) e0')))))).
  { intros e0 e0' did L0. cbn [both]. rewrite (like_nlinks _ _ L0).
    apply like_up_loc; [|intros; now apply ll_links]. apply like_app_links; [|kgoal].
    apply like_up_loc; [|intros; now apply ll_links]. apply like_app_links; [exact L0|kgoal]. }
  destruct at_ as [dd|]; cbv zeta iota beta.
  - rewrite (lk_dicts _ _ L). apply W. now apply like_up_dicts.
  - apply W, L.
Qed.

Lemma like_up_score S o t i e e' g : Like e e' -> s_FixedRoutes S = false ->
  both LikeG (updateLocationScore S o t i e g) (updateLocationScore S o t i e' g).
Proof.
  intros L Fx. unfold updateLocationScore. rewrite Fx. lstep L. rewrite (like_attrs _ _ _ _ L H). vstep.
  eapply both_bind with (R := eq); [apply both_of_eq; ll H; reflexivity|]. intros sc ? <-. cbn. split; auto.
  apply like_up_loc; auto. intros l l' R. lls.
Qed.

Lemma cap_parse S d lt l l1 : parse_location_type S d lt l = Ok l1 -> l_capacity (auto_camp l1) = l_capacity l.
Proof.
  intro H. assert (X : l_capacity l1 = l_capacity l).
  { unfold parse_location_type in H. destruct lt; [|now injection H as <-].
    repeat match type of H with (if ?b then _ else _) = _ => destruct b end; try (now injection H as <-).
    apply bind_ok in H as (c & _ & [= <-]). reflexivity. }
  rewrite <- X. unfold auto_camp. now destruct (_ && _)%bool.
Qed.
Lemma like_new_location S d n r x y lt mc cap pop f c did : (cap <= 0)%Z ->
  both Ll (new_location S d n r x y lt mc cap pop f c did) (new_location S d n r x y lt mc cap pop f c did).
Proof.
  intro C. unfold new_location. destruct (parse_location_type _ _ _ _) as [l|] eqn:E; [|exact I]. cbn.
  apply cap_parse in E. cbn in E. split; [now rewrite E|]. destruct (auto_camp l). repeat eexists.
Qed.
Lemma like_add_location S o n r x y lt mc cap pop f c at_ e e' g : Like e e' -> s_FixedRoutes S = false -> (cap <= 0)%Z ->
  both LikeG (add_location S o n r x y lt mc cap pop f c at_ e g) (add_location S o n r x y lt mc cap pop f c at_ e' g).
Proof.
  intros L Fx C. unfold add_location.
  assert (W : forall e0 e0' did, Like e0 e0' -> both LikeG
    (d <- dict_of e0 did ;;
     l <- new_location S d n r x y lt mc cap pop f c did ;;
     '(e1, g1) <- updateLocationScore S o 0 (List.length (e_locations e0)) (up_e_locations (fun ls => ls ++ [l]) e0) g ;;
     e3 <- refresh_spawn_weights S (up_e_locationNames (fun ns => ns ++ [n])
              (up_e_spawn_weights (fun ws => ws ++ [0%Q]) e1)) ;; Ok (e3, g1))
    (d <- dict_of e0' did ;;
     l <- new_location S d n r x y lt mc cap pop f c did ;;
     '(e1, g1) <- updateLocationScore S o 0 (List.length (e_locations e0')) (up_e_locations (fun ls => ls ++ [l]) e0') g ;;
     e3 <- refresh_spawn_weights S (up_e_locationNames (fun ns => ns ++ [n])
              (up_e_spawn_weights (fun ws => ws ++ [0%Q]) e1)) ;; Ok (e3, g1))).
  { intros e0 e0' did L0. rewrite (like_dict _ _ did L0). vstep.
    eapply both_bind; [now apply like_new_location|]. intros l l' R. rewrite (like_nlocs _ _ L0).
    eapply both_bind; [apply like_up_score; [now apply like_app_locs|exact Fx]|].
    intros [e1 g1] [e1' g1'] [L1 G]. cbn in L1, G. subst g1'.
    eapply both_bind; [apply like_refresh; apply like_up_names; apply like_up_weights; [exact L1|]|].
    - rewrite !app_length. now rewrite (lk_weights _ _ L1).
    - intros. cbn. split; auto. }
  destruct at_ as [dd|]; cbv zeta iota beta.
  - rewrite (lk_dicts _ _ L). apply W. now apply like_up_dicts.
  - apply W, L.
Qed.

(** ** Agents *)

Lemma like_append i at_ e e' : Like e e' -> both Like (append_agent i at_ e) (append_agent i at_ e').
Proof.
  intro L. unfold append_agent. lstep L. cbn. apply like_up_loc; [now apply like_up_agents|]. intros; now apply ll_add.
Qed.
Lemma like_own i at_ e e' : Like e e' -> both Like (append_agent i at_ e) (par_own i at_ e').
Proof.
  intro L. assert (L1 : Like e (up_e_total_agents (fun z => z + 1)%Z e')) by now apply like_total.
  pose proof (like_append i at_ _ _ L1) as X. unfold par_own. cbv zeta.
  cbn [up_e_total_agents e_mpi_size e_total_agents e_rank].
  rewrite (lk_size _ _ L), (lk_rank _ _ L), Z.mod_1_r. cbn [Z.eqb].
  destruct (loc_of e' i) as [l'|] eqn:E; [exact X|].
  unfold append_agent in *. pose proof (like_loc _ _ i L) as Y. rewrite E in Y. destruct (loc_of e i); [destruct Y|exact I].
Qed.
Lemma like_insert_many i n e e' : Like e e' -> both Like (insert_agents i n e) (par_insert_agents i n e').
Proof. intro L. unfold insert_agents, par_insert_agents. apply both_foldM; auto. intros. now apply like_own. Qed.
Lemma like_up_loc_at i f h e e' : Like e e' ->
  (forall l l', loc_of e i = Ok l -> loc_of e' i = Ok l' -> Ll l l' -> Ll (f l) (h l')) -> Like (up_loc i f e) (up_loc i h e').
Proof.
  intros [] H. constructor; try assumption. cbn. apply F2_upd; auto. intros a b A B. apply H; unfold loc_of; now rewrite ?A, ?B.
Qed.
(** The parallel version refuses to spawn where fewer than two people are left. *)
Lemma like_add_agent S i at_ e e' e2 : Like e e' -> par_add_agent S i at_ e' = Ok e2 ->
  exists e1, add_agent S i at_ e = Ok e1 /\ Like e1 e2.
Proof.
  intros L H. unfold par_add_agent, add_agent in *.
  pose proof (like_loc _ _ i L) as Y. destruct (loc_of e' i) as [l'|] eqn:E'; [|discriminate]. apply both_ok_r in Y as (l & E & R).
  rewrite E. cbn [bind] in *. cbv zeta. destruct (s_TakeFromPopulation S).
  2:{ apply both_ok_r with (R := Like). rewrite <- H. now apply like_own. }
  destruct (1 <? l_pop l')%Z eqn:P; [|discriminate].
  apply both_ok_r with (R := Like). rewrite <- H. clear H e2. cbn [bind].
  apply like_own. apply like_up_loc_at; auto. intros m m' E1 E2 R1. rewrite E' in E2. injection E2 as <-.
  assert (X : (0 <? l_pop m)%Z = true).
  { apply Z.ltb_lt. apply Z.ltb_lt in P. destruct R1 as (_ & ? & ? & ? & ? & ? & ->). cbn in P. lia. }
  rewrite X. destruct R1 as (c & ? & ? & ? & ? & ? & ->). llgoal.
Qed.

(** ** Tables *)

Lemma like_update_attributes ig a t e e' : Like e e' -> both Like (update_attributes ig a t e) (update_attributes ig a t e').
Proof.
  intro L. unfold update_attributes. vstep. rewrite (like_nlocs _ _ L). apply both_foldM; [|exact L].
  intros e1 e1' i _ L1. lstep L1. assert (Q : lname b = lname a1) by (ll H; reflexivity). rewrite Q. vstep.
  now apply like_set_attr.
Qed.
Lemma like_new_conflicts S f ig t e e' : Like e e' ->
  both Like (add_new_conflict_zones S f ig t e) (add_new_conflict_zones S f ig t e').
Proof.
  intro L. unfold add_new_conflict_zones. vstep. eapply both_bind with (R := Like).
  { unfold apply_changes. apply both_foldM; [|exact L]. intros e1 e1' c _ L1. vstep. vstep.
    destruct (_ =? _)%Z; [|exact L1]. vstep. vstep. now apply like_change_type. }
  clear e e' L. intros e e' L. destruct (s_FloodRulesEnabled S).
  { eapply both_bind; [now apply like_update_attributes|]. intros. destruct (s_FloodForecaster S); [|assumption].
    now apply like_update_attributes. }
  destruct f.
  - apply both_foldM; [|exact L]. clear e e' L. intros e e' [n vs] _ L. unfold conflict_step.
    destruct (_ <? _)%Z; [exact I|]. vstep. eapply both_bind with (R := Like).
    + destruct (Qltb _ _); [|exact L]. destruct (0 <? _)%Z; [|now apply like_add_conflict]. vstep.
      destruct (Qltb _ _); [now apply like_intensity|exact L].
    + clear e e' L. intros e e' L. destruct (_ && _)%bool; [|exact L]. vstep.
      destruct (Qleb _ _); [now apply like_intensity|exact L].
  - unfold conflicts_from_locations. apply both_foldM; [|exact L]. clear e e' L. intros e e' loc _ L.
    vstep. destruct (str_in _ _); [|exact L]. vstep. vstep. destruct (_ =? _)%Z; [|exact L].
    vstep. vstep. vstep. now apply like_add_conflict.
Qed.

(** ** Every inherited call *)

Lemma like_pure (x y : res eco) g : both Like x y ->
  both LikeG (e1 <- x ;; Ok (e1, g)) (e1 <- y ;; Ok (e1, g)).
Proof. intro H. eapply both_bind; [exact H|]. intros. cbn. split; auto. Qed.

Lemma like_inherited o S c e e' g : Like e e' -> inherited c = true -> both LikeG (step o S c e g) (step o S c e' g).
Proof.
  intros L I. destruct c; try discriminate; cbn [step];
    try (apply like_pure); try (apply like_rmap).
  - now apply like_link_up.
  - now apply like_set_attr.
  - now apply like_remove.
  - now apply like_reopen.
  - now apply like_location.
  - now apply like_location.
  - now apply like_border.
  - now apply like_border.
  - now apply like_close_camp.
  - now apply like_open_camp.
  - now apply like_change_type.
  - now apply like_forced.
  - cbn. split; auto. cbn. now apply like_up_closures.
  - now apply like_enact.
  - now apply like_refresh.
  - now apply like_add_conflict.
  - now apply like_remove_conflict.
  - now apply like_intensity.
  - now apply like_update_attributes.
  - now apply like_new_conflicts.
Qed.
