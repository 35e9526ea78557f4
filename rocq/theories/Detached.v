(** * Detached: a link that was closed under way stays closed and is never reopened *)

From Coq Require Import Lia Lqa.
From Verif Require Import Base State Moving Crawling Scoring Diagnostics Flee DataTable
  Spawning InputGeography Api SpecAgents SpecHistory SpecRoutes SpecTravel Lemmas Inv InvMoves InvStruct
  ScoreFrames RouteProofs Traffic Frames StepRel Travel Streams Terminate TravelRun Terminate2 TravelProps.
Local Open Scope Q_scope.

Definition stores (e : eco) : list (list nat) := map l_closed_links (e_locations e).

(** A closed link object that is not stored for reopening *)
Definition detached (e : eco) (ki : nat) : Prop :=
  (exists k, nth_error (e_links e) ki = Some k /\ k_closed k = true) /\
  forall s, In s (stores e) -> ~ In ki s.

Definition Det (e e' : eco) : Prop := forall ki, detached e ki -> detached e' ki.
Lemma det_refl e : Det e e. Proof. red; auto. Qed.
Lemma det_trans a b c : Det a b -> Det b c -> Det a c. Proof. unfold Det; auto. Qed.

Lemma det_gen e e' :
  (forall ki k, nth_error (e_links e) ki = Some k -> k_closed k = true ->
     exists k', nth_error (e_links e') ki = Some k' /\ k_closed k' = true) ->
  (forall s ki, In s (stores e') -> In ki s -> (ki < List.length (e_links e))%nat -> exists s0, In s0 (stores e) /\ In ki s0) ->
  Det e e'.
Proof.
  intros HK HS ki [(k & K & C) D]. split; [eauto|]. intros s Hs Hin.
  destruct (HS s ki Hs Hin) as (s0 & A & B); [eapply nth_error_lt; eauto|]. eapply D; eauto.
Qed.
Lemma det_frame e e' l : map kstruct (e_links e') = map kstruct (e_links e) ++ l -> stores e' = stores e -> Det e e'.
Proof.
  intros HK HS. apply det_gen.
  - intros ki k K C. assert (X : nth_error (map kstruct (e_links e')) ki = Some (kstruct k)).
    { rewrite HK, nth_error_app1, nth_error_map, K; [reflexivity|].
      rewrite map_length. eapply nth_error_lt; eauto. }
    rewrite nth_error_map in X. destruct (nth_error (e_links e') ki) as [k'|]; [|discriminate].
    exists k'. split; [reflexivity|]. cbn in X. injection X as _ _ X _. congruence.
  - rewrite HS. eauto.
Qed.
Lemma det_same e e' : SameStruct e e' -> Det e e'.
Proof.
  intros [_ _ L K _ _]. apply det_frame with []; [rewrite app_nil_r; assumption|].
  exact (map_via lstruct (fun x => snd (fst x)) _ _ L).
Qed.
Lemma det_net e e' : Net e e' -> Det e e'.
Proof. intros [_ C K _ _]. apply det_frame with []; [now rewrite app_nil_r|assumption]. Qed.

Lemma stores_up_loc i f e : (forall l, l_closed_links (f l) = l_closed_links l) -> stores (up_loc i f e) = stores e.
Proof. intro H. unfold stores. cbn [up_loc up_e_locations e_locations]. now apply map_upd. Qed.

Lemma det_append i at_ e e' : append_agent i at_ e = Ok e' -> Det e e'.
Proof.
  unfold append_agent; intro H; rstep H. injection H as <-.
  apply det_frame with []; [now rewrite app_nil_r|]. rewrite stores_up_loc; [reflexivity|].
  intro l; unfold loc_add. destruct (e_par e); reflexivity.
Qed.

Lemma det_dec p e e' : dec_at p e = Ok e' -> Det e e'.
Proof. intro H. apply (mv_dec 0) in H. apply det_net, (net_mv 0), H. Qed.

Lemma det_clear ns e e' : clear_locations ns e = Ok e' -> Det e e'.
Proof.
  unfold clear_locations; intro E. rstep E. injection E as <-.
  eapply det_trans with v; [|apply det_frame with []; [now rewrite app_nil_r|reflexivity]].
  eapply (foldM_rel Det) in E0; [exact E0|auto using det_refl|eauto using det_trans|].
  intros s a s' _ Hs. rstep Hs. rstep Hs; [|discriminate]. eapply det_dec; eauto.
Qed.

Lemma new_location_store S d n r x y lt mc cap pop f c did l :
  new_location S d n r x y lt mc cap pop f c did = Ok l -> l_closed_links l = [].
Proof.
  unfold new_location. intro H. rstep H. injection H as <-.
  assert (X : l_closed_links v = []).
  { unfold parse_location_type in E. destruct lt; [|injection E as <-; reflexivity]. cbv zeta in E.
    repeat match type of E with (if ?b then _ else _) = _ => destruct b end; try (injection E as <-; reflexivity).
    rstep E. injection E as <-. reflexivity. }
  unfold auto_camp. match goal with |- context [if ?b then _ else _] => destruct b end; exact X.
Qed.

Lemma det_add_location S o n r x y lt mc cap pop f c at_ e g e' g' :
  add_location S o n r x y lt mc cap pop f c at_ e g = Ok (e', g') -> Det e e'.
Proof.
  unfold add_location; intro H.
  rstep H. rstep H. cbv zeta in H. rstep H. rstep H. destruct v1 as [e1 g1]. rstep H. injection H as <- <-.
  assert (Q0 : e_links a = e_links e /\ e_locations a = e_locations e) by (destruct at_; inversion Heqp; subst; auto).
  destruct Q0 as [Q0 Q0'].
  apply new_location_store in E0.
  eapply det_trans with (up_e_locations (fun ls => ls ++ [v0]) a).
  - apply det_gen.
    + cbn. rewrite Q0. eauto.
    + unfold stores. cbn [up_e_locations e_locations]. rewrite map_app, Q0'. intros s ki Hs Hk _.
      apply in_app_or in Hs as [Hs|[<-|[]]]; [eauto|]. rewrite E0 in Hk. destruct Hk.
  - eapply det_trans; [eapply det_same, s_struct, sl_same, still_updateLocationScore; eauto|].
    eapply det_trans; [|eapply det_same, s_struct, sl_same, still_refresh; eauto].
    apply det_frame with []; [now rewrite app_nil_r|reflexivity].
Qed.

Lemma det_kapp i k e : Det e (kapp i k e).
Proof.
  unfold kapp. apply det_frame with [kstruct k]; [cbn; now rewrite map_app|].
  now rewrite stores_up_loc.
Qed.

Lemma det_link_up n1 n2 d f at_ e e' : link_up n1 n2 d f at_ e = Ok e' -> Det e e'.
Proof.
  intro H. apply link_up_spec in H as (i1 & i2 & e0 & did & _ & _ & _ & _ & C & ->).
  assert (D0 : Det e e0).
  { destruct C as [(-> & -> & ->)|(a & -> & -> & ->)]; [apply det_refl|].
    apply det_frame with []; [now rewrite app_nil_r|reflexivity]. }
  eapply det_trans; [exact D0|]. eapply det_trans; apply det_kapp.
Qed.

Lemma det_remove s t co e e' b : remove_link_1way s t co e = Ok (e', b) -> Det e e'.
Proof.
  unfold remove_link_1way; intro H. rstep H. rstep H. destruct v0 as [[e1 l] r]. injection H as <- <-.
  apply det_trans with e1.
  2: { apply det_frame with []; [now rewrite app_nil_r|]. now apply stores_up_loc. }
  eapply (foldM_rel (fun s s' => Det (fst (fst s)) (fst (fst s')))) in E0;
    [exact E0|auto using det_refl|eauto using det_trans|].
  intros [[e2 l2] r2] ki [[e3 l3] r3] _ Hs. unfold remove_step in Hs. cbn [fst].
  rstep Hs. rstep Hs. rstep Hs; [injection Hs as <- _ _; apply det_refl|].
  rstep Hs; [|injection Hs as <- _ _; apply det_refl]. injection Hs as <- _ _.
  apply det_gen.
  - intros kj k K C. cbn. rewrite nth_error_app1 by (rewrite upd_length; eapply nth_error_lt; eauto).
    rewrite nth_upd. destruct (Nat.eqb_spec ki kj) as [->|]; rewrite K; cbn; eauto.
  - intros s0 kj Hs0 Hk Lt. unfold stores in Hs0. cbn [up_loc up_e_locations e_locations up_e_links] in Hs0.
    apply in_map_iff in Hs0 as (l0 & <- & Hl0). apply In_nth_error in Hl0 as [j Hj].
    rewrite nth_upd in Hj. destruct (nth_error (e_locations _) j) as [l1|] eqn:E4.
    2: { destruct (_ =? _)%nat; discriminate. }
    assert (In (l_closed_links l1) (stores e2)) by (apply in_map; eapply nth_error_In; exact E4).
    destruct (_ =? _)%nat; injection Hj as <-; [|eauto].
    cbn in Hk. apply in_app_or in Hk as [Hk|[Hk|[]]]; [eauto|lia].
Qed.

Lemma det_reopen s t e e' b : reopen_link_1way s t e = Ok (e', b) -> Det e e'.
Proof.
  unfold reopen_link_1way; intro H. rstep H. rstep H. destruct v0 as [[e1 nc] r]. injection H as <- <-.
  unfold loc_of in E. apply of_option_ok in E. rename v into l.
  intros kj D0.
  assert (N0 : ~ In kj (l_closed_links l)).
  { destruct D0 as [_ D]. apply D. apply in_map. eapply nth_error_In; eauto. }
  assert (D1 : detached e1 kj /\ forall z, In z nc -> In z (l_closed_links l)).
  { eapply (foldM_inv (fun st => detached (fst (fst st)) kj /\ forall z, In z (snd (fst st)) -> In z (l_closed_links l))) in E0;
      [exact E0| |split; [exact D0|intros z []]].
    intros [[e2 l2] r2] ki [[e3 l3] r3] Hin [D2 Sub] Hs. unfold reopen_step in Hs. cbn [fst snd] in *.
    rstep Hs. rstep Hs. rstep Hs; injection Hs as <- <- _.
    - split; [assumption|]. intros z Hz. apply in_app_or in Hz as [Hz|[<-|[]]]; auto.
    - split; [|assumption]. destruct D2 as [(k & K & C) D2]. split.
      + exists k. cbn [up_link up_loc e_links up_e_links up_e_locations].
        rewrite nth_upd_other; [auto|]. intros ->. contradiction.
      + intros s0 Hs0. apply D2. rewrite <- (stores_up_loc (convert_name e s) (up_l_links (fun ks => ks ++ [ki])) e2) by reflexivity.
        exact Hs0. }
  destruct D1 as [[(k & K & C) D1] Sub]. split; [exists k; auto|].
  intros s0 Hs0 Hk. unfold stores in Hs0. cbn [up_loc up_e_locations e_locations] in Hs0.
  apply in_map_iff in Hs0 as (l0 & <- & Hl0). apply In_nth_error in Hl0 as [j Hj].
  rewrite nth_upd in Hj. destruct (nth_error (e_locations e1) j) as [l1|] eqn:E4.
  2: { destruct (_ =? _)%nat; discriminate. }
  destruct (_ =? _)%nat; injection Hj as <-.
  - cbn in Hk. auto.
  - apply (D1 (l_closed_links l1)); [apply in_map; eapply nth_error_In; exact E4|assumption].
Qed.

Lemma step_det o S c e g e' g' : Inv e -> rng_ok g -> step o S c e g = Ok (e', g') -> Det e e'.
Proof.
  intros I G H. destruct (is_evolve c) eqn:Ev.
  - destruct c; try discriminate. cbn in H. apply evolve_day in H as [N _]; auto. now apply det_net.
  - eapply (step_rel Det); [..|exact Ev|exact H]; intros; eauto using det_refl, det_trans, det_add_location,
      det_link_up, det_append, det_clear, det_remove, det_reopen.
    eapply det_same, s_struct, sl_same; eauto.
Qed.

Lemma run_det o h : forall e g e' g', Inv e -> rng_ok g -> run o h e g = Ok (e', g') -> Det e e'.
Proof.
  induction h as [|c h IH]; intros e g e' g' I G H.
  - unfold run in H; cbn in H. injection H as <- _. apply det_refl.
  - apply run_cons in H as (e1 & g1 & H1 & H). eapply det_trans; [eapply step_det; eauto|].
    eapply IH; [eapply step_inv; eauto| |exact H]. eapply streams_ok; [eapply step_streams; eauto|assumption].
Qed.

Lemma agent_detached e a ki k : Inv e -> In a (e_agents e) -> a_location a = PLink ki ->
  nth_error (e_links e) ki = Some k -> k_closed k = true -> detached e ki.
Proof.
  intros I Ha L K C. split; [eauto|]. intros s Hs Hk. apply in_map_iff in Hs as (l & <- & Hl).
  apply In_nth_error in Hl as [i Hl]. exact (i_store _ I i l ki a Hl Hk Ha L).
Qed.

Lemma day_link_trip S e m n ki x m' n' p' x' : day S e m n (PLink ki) x m' n' p' x' ->
  (p' = PLink ki /\ n' = n) \/ (n < n')%Z.
Proof.
  intro D; inversion D; subst; auto; try (right; lia).
  match goal with D' : day _ _ _ _ (PLoc _) _ _ _ _ _ |- _ => apply day_trips in D' end. right; lia.
Qed.

(** As long as the trip number is the same the agent is on the same link. *)
Lemma run_same_trip o h : forall e g e' g' ai a a' ki, Inv e -> rng_ok g -> run o h e g = Ok (e', g') -> no_clear h ->
  nth_error (e_agents e) ai = Some a -> a_location a = PLink ki ->
  nth_error (e_agents e') ai = Some a' -> a_places_travelled a' = a_places_travelled a ->
  a_location a' = PLink ki.
Proof.
  induction h as [|c h IH]; intros e g e' g' ai a a' ki I G H NC Ha L Ha' P.
  - unfold run in H; cbn in H. injection H as <- _. congruence.
  - apply run_cons in H as (e1 & g1 & H1 & H). inversion NC as [|? ? NC1 NC2]; subst.
    assert (I1 : Inv e1) by (eapply step_inv; eauto).
    assert (G1 : rng_ok g1) by (eapply streams_ok; [eapply step_streams; eauto|assumption]).
    destruct (step_trips _ _ _ _ _ _ _ _ _ I G H1 NC1 Ha) as (a1 & Ha1 & P1 & Sm).
    destruct (run_trips _ _ _ _ _ _ _ a1 I1 G1 H NC2 Ha1) as (a'' & Ha'' & P2).
    assert (a'' = a') as -> by congruence.
    apply (IH e1 g1 e' g' ai a1 a' ki); auto; [|lia].
    destruct (is_evolve (snd c)) eqn:Ev; [|rewrite Sm by reflexivity; assumption].
    destruct (snd c) eqn:Ec; try discriminate. cbn in H1.
    destruct (evolve_day _ _ _ _ _ _ _ I G H1) as (_ & _ & D1).
    destruct (D1 ai a Ha) as (b & a2 & Ha2 & Dy & Lb & Pb & _). { unfold gone_of. now rewrite L. }
    assert (a2 = a1) as -> by congruence. unfold day_of in Dy. rewrite L in Dy.
    apply day_link_trip in Dy as [[Q1 Q2]|Q]; [|lia]. destruct Lb as [->|(j & Q3 & _)]; congruence.
Qed.

Theorem closed_under_way o e g h e1 g1 fuel S e2 g2 ai a ki k a1 :
  reachable o e g -> rng_ok g ->
  nth_error (e_agents e) ai = Some a -> a_location a = PLink ki ->
  nth_error (e_links e) ki = Some k -> k_closed k = true ->
  run o h e g = Ok (e1, g1) -> no_clear h ->
  nth_error (e_agents e1) ai = Some a1 -> a_places_travelled a1 = a_places_travelled a ->
  evolve fuel S o e1 g1 = Ok (e2, g2) ->
  a_location a1 = PLink ki /\
  exists a2, nth_error (e_agents e2) ai = Some a2 /\
    ((a_location a2 = PLink ki /\ a_places_travelled a2 = a_places_travelled a) \/
     ((a_location a2 = PLoc (k_startpoint k) \/ a_location a2 = PGone (k_startpoint k)) /\
      a_places_travelled a2 = (a_places_travelled a + 1)%Z)).
Proof.
  intros R G Ha L K C H NC Ha1 P1 E. pose proof (reachable_inv _ _ _ R) as I.
  pose proof (run_same_trip _ _ _ _ _ _ _ _ _ _ I G H NC Ha L Ha1 P1) as L1.
  split; [assumption|].
  pose proof (run_det _ _ _ _ _ _ I G H ki (agent_detached _ _ _ _ I (nth_error_In _ _ Ha) L K C)) as [(k1 & K1 & C1) _].
  pose proof (run_inv _ _ _ _ _ _ I H) as I1.
  assert (G1 : rng_ok g1) by (eapply streams_ok; [eapply run_streams; eauto|assumption]).
  destruct (evolve_day _ _ _ _ _ _ _ I1 G1 E) as (_ & _ & D1).
  destruct (D1 ai a1 Ha1) as (b & a2 & Ha2 & Dy & Lb & Pb & _). { unfold gone_of. now rewrite L1. }
  exists a2. split; [assumption|]. rewrite <- P1, Pb.
  destruct (run_grow _ _ _ _ _ _ H ki k K) as (k2 & K2 & St & _). assert (k2 = k1) as -> by congruence.
  unfold day_of in Dy. rewrite L1 in Dy.
  assert (Z : (a_location b = PLink ki /\ a_places_travelled b = a_places_travelled a1) \/
    (a_location b = PLoc (k_startpoint k1) /\ a_places_travelled b = (a_places_travelled a1 + 1)%Z)).
  { clear - Dy K1 C1. inversion Dy; subst; auto; try congruence. right. split; congruence. }
  rewrite St in Z. destruct Z as [[Z1 Z2]|[Z1 Z2]].
  - left. split; [|assumption]. destruct Lb as [->|(j & Q3 & _)]; congruence.
  - right. split; [|assumption]. destruct Lb as [->|(j & Q3 & ->)]; [now left|right; congruence].
Qed.

(** ** Closing a link marks the link objects *)

Definition Shut (e e' : eco) : Prop :=
  e_locationNames e' = e_locationNames e /\ map l_name (e_locations e') = map l_name (e_locations e) /\
  e_agents e' = e_agents e /\
  forall ki k, nth_error (e_links e) ki = Some k ->
    exists k', nth_error (e_links e') ki = Some k' /\ k_endpoint k' = k_endpoint k /\
      (k_closed k = true -> k_closed k' = true).
Lemma shut_refl e : Shut e e. Proof. repeat split; auto. intros ki k K; exists k; auto. Qed.
Lemma shut_trans a b c : Shut a b -> Shut b c -> Shut a c.
Proof.
  intros (A1 & A2 & A3 & A4) (B1 & B2 & B3 & B4). repeat split; try congruence.
  intros ki k K. destruct (A4 ki k K) as (k1 & K1 & E1 & C1). destruct (B4 ki k1 K1) as (k2 & K2 & E2 & C2).
  exists k2. split; [assumption|]. split; [congruence|auto].
Qed.
Lemma shut_step x t co st ki st' : remove_step x t co st ki = Ok st' -> Shut (fst (fst st)) (fst (fst st')).
Proof.
  destruct st as [[e2 l2] r2], st' as [[e3 l3] r3]. intro Hs. unfold remove_step in Hs. cbn [fst].
  rstep Hs. rstep Hs. rstep Hs; [injection Hs as <- _ _; apply shut_refl|].
  rstep Hs; [|injection Hs as <- _ _; apply shut_refl]. injection Hs as <- _ _.
  split; [reflexivity|]. split; [cbn; now rewrite map_upd|]. split; [reflexivity|].
  intros kj k K. cbn. rewrite nth_error_app1 by (rewrite upd_length; eapply nth_error_lt; eauto).
  rewrite nth_upd. destruct (Nat.eqb_spec ki kj) as [->|]; rewrite K; cbn; eauto.
Qed.

Lemma shut_names e e' i l : Shut e e' -> nth_error (e_locations e) i = Some l ->
  exists l', nth_error (e_locations e') i = Some l' /\ l_name l' = l_name l.
Proof. intros (_ & N & _) H. destruct (map_eq_nth l_name l_name _ _ i l N H) as (l' & A & B). eauto. Qed.

Lemma remove_marks x t : forall ks st st', foldM (remove_step x t true) ks st = Ok st' ->
  Shut (fst (fst st)) (fst (fst st')) /\
  forall ki k ep, In ki ks -> nth_error (e_links (fst (fst st))) ki = Some k ->
    nth_error (e_locations (fst (fst st))) (k_endpoint k) = Some ep -> py_is (l_name ep) t = true ->
    exists k', nth_error (e_links (fst (fst st'))) ki = Some k' /\ k_closed k' = true.
Proof.
  induction ks as [|kj ks IH]; intros st st' H; cbn [foldM] in H.
  - injection H as <-. split; [apply shut_refl|intros ki k ep []].
  - rstep H. destruct (IH v st' H) as [S2 M2]. pose proof (shut_step _ _ _ _ _ _ E) as S1.
    split; [eapply shut_trans; eauto|]. intros ki k ep [->|Hin] K Ep P.
    + destruct st as [[e2 l2] r2], v as [[e3 l3] r3]. unfold remove_step in E. cbn [fst] in *.
      unfold link_of, endpoint_of, loc_of in E. rewrite K in E. cbn [of_option bind] in E. rewrite Ep in E. cbn [of_option bind] in E.
      rewrite P in E. cbn [negb] in E. injection E as <- _ _.
      destruct S2 as (_ & _ & _ & S2). destruct (S2 ki (up_k_closed (fun _ => true) k)) as (k' & K' & _ & C').
      { cbn. rewrite nth_error_app1 by (rewrite upd_length; eapply nth_error_lt; eauto). rewrite nth_upd_same, K. reflexivity. }
      exists k'. split; [assumption|]. apply C'. reflexivity.
    + destruct S1 as (N1 & N2 & N3 & S1). destruct (S1 ki k K) as (k1 & K1 & E1 & _).
      destruct (shut_names _ _ _ _ (conj N1 (conj N2 (conj N3 S1))) Ep) as (ep1 & Ep1 & Nm).
      rewrite <- E1 in Ep1. apply (M2 ki k1 ep1); auto. now rewrite Nm.
Qed.

Theorem close_marks s t e e' b i l ki k ep : close_link s t false e = Ok (e', b) ->
  convert_name e s = i -> nth_error (e_locations e) i = Some l -> In ki (l_links l) ->
  nth_error (e_links e) ki = Some k -> nth_error (e_locations e) (k_endpoint k) = Some ep ->
  py_is (l_name ep) t = true ->
  e_agents e' = e_agents e /\ exists k', nth_error (e_links e') ki = Some k' /\ k_closed k' = true.
Proof.
  intros H X Hl Hin K Ep P. unfold close_link, remove_link, remove_link_1way in H. rewrite X in H.
  unfold loc_of in H. rewrite Hl in H. cbn [of_option bind] in H. rstep H. destruct v as [[e1 nl] r]. injection H as <- _.
  destruct (remove_marks _ _ _ _ _ E) as [(_ & _ & A & _) M]. cbn [fst] in *.
  split; [exact A|]. eapply M; eauto.
Qed.
