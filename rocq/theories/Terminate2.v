(** * Terminate2: whole time steps never run out of fuel *)

From Coq Require Import Lia Lqa.
From Verif Require Import Base State Moving Crawling Scoring Diagnostics Flee DataTable
  Spawning InputGeography Api SpecAgents SpecRoutes SpecTravel Lemmas Inv InvMoves InvStruct Frames
  ScoreFrames RouteProofs Travel Terminate TravelRun.
Local Open Scope Q_scope.

Lemma nf_foldM_inv {A St} (P : St -> Prop) (f : St -> A -> res St) l : forall s, P s ->
  (forall s a, In a l -> P s -> NF (f s a)) ->
  (forall s a s', In a l -> P s -> f s a = Ok s' -> P s') -> NF (foldM f l s).
Proof.
  induction l as [|a l IH]; intros s Ps H1 H2; cbn; [nf|].
  apply nf_bind; [apply H1; auto; now left|]. intros s' E. apply IH.
  - eapply H2; eauto. now left.
  - intros; apply H1; auto; now right.
  - intros; eapply H2; eauto; now right.
Qed.

Lemma nf_fold_seq {St} (P : nat -> St -> Prop) (f : St -> nat -> res St) n : forall k s, P k s ->
  (forall j s, (k <= j < k + n)%nat -> P j s -> NF (f s j)) ->
  (forall j s s', (k <= j < k + n)%nat -> P j s -> f s j = Ok s' -> P (Datatypes.S j) s') ->
  NF (foldM f (seq k n) s).
Proof.
  induction n as [|n IH]; intros k s Ps H1 H2; cbn [seq foldM]; [nf|].
  apply nf_bind; [apply H1; auto; lia|]. intros s' E. apply IH.
  - apply (H2 k s); auto; lia.
  - intros; apply H1; auto; lia.
  - intros; eapply H2; eauto; lia.
Qed.

(** ** Route generation *)

Lemma nf_crawlScore S e ep : NF (crawlScore S e ep). Proof. unfold crawlScore. cbv zeta. nf. Qed.
#[export] Hint Resolve nf_crawlScore : nf.
Lemma nf_addLocationRoute S o e src cur ki prior origin major :
  NF (addLocationRoute S o e src cur ki prior origin major).
Proof. unfold addLocationRoute, crawlWeight. cbv zeta. nf. Qed.
#[export] Hint Resolve nf_addLocationRoute : nf.

Lemma rt_loc src e e' i l' : Rt src e e' -> nth_error (e_locations e') i = Some l' ->
  exists l, nth_error (e_locations e) i = Some l /\ l_name l' = l_name l /\ l_links l' = l_links l.
Proof.
  intros [r ->] H. cbn in H. rewrite nth_upd in H. destruct (Nat.eqb src i); [|eauto].
  destruct (nth_error (e_locations e) i); [|discriminate]. injection H as <-. eauto.
Qed.
Lemma rt_links src e e' : Rt src e e' -> e_links e' = e_links e.
Proof. intros [r ->]. reflexivity. Qed.

Lemma crawl_terminates S o src e0 fuel : forall ki prior origin step e, Rt src e0 e ->
  (forall k ep, nth_error (e_links e0) ki = Some k -> nth_error (e_locations e0) (k_endpoint k) = Some ep ->
     (measure e0 origin ep < fuel)%nat) -> (0 < fuel)%nat ->
  NF (crawlLink fuel S o src ki prior origin step e).
Proof.
  induction fuel as [|fuel IH]; intros ki prior origin step e R M Pos; [lia|].
  cbn [crawlLink]. apply nf_bind; [nf|]. intros k Hk. apply link_of_ok in Hk. rewrite (rt_links _ _ _ R) in Hk.
  apply nf_bind; [nf|]. intros ep Hep. unfold endpoint_of in Hep. apply loc_of_ok in Hep.
  destruct (rt_loc _ _ _ _ _ R Hep) as (ep0 & Hep0 & Nep & Lep).
  apply nf_bind; [nf|]. intros e1 H1.
  assert (R1 : Rt src e0 e1).
  { eapply rt_trans; [exact R|]. destruct (l_marker ep); [rinv H1; auto|eapply rt_addLocationRoute; eauto]. }
  destruct (step <? _)%Z; [|nf]. specialize (M k ep0 Hk Hep0).
  apply (nf_foldM_inv (Rt src e0)); [exact R1| |].
  - intros e2 li _ R2. apply nf_bind; [nf|]. intros lel Hlel. apply link_of_ok in Hlel.
    rewrite (rt_links _ _ _ R2) in Hlel.
    apply nf_bind; [nf|]. intros lep Hlep. unfold endpoint_of in Hlep. apply loc_of_ok in Hlep.
    destruct (rt_loc _ _ _ _ _ R2 Hlep) as (lep0 & Hlep0 & Nlep & _).
    destruct (mem_str (lname lep) origin) eqn:E; [nf|].
    assert (E0 : mem_str (lname lep0) origin = false) by (unfold lname in *; congruence).
    pose proof (measure_decreases e0 origin _ ep0 lep0 Hep0 E0) as D.
    replace (lname ep) with (lname ep0) by (unfold lname; congruence).
    apply IH; [exact R2| |lia].
    intros k' ep' Hk' Hep'. assert (k' = lel) as -> by congruence.
    assert (ep' = lep0) as -> by congruence. lia.
  - intros e2 li e3 _ R2 Hs. eapply rt_trans; [exact R2|]. rinv Hs; auto. eapply rt_crawlLink; eauto.
Qed.

Lemma nf_find_link_to e links n : NF (find_link_to e links n).
Proof. induction links; cbn; nf. Qed.
#[export] Hint Resolve nf_find_link_to : nf.
Lemma nf_addMajorRoute S o route rest : forall src cur prior e, NF (addMajorRoute S o e src cur prior route rest).
Proof.
  induction rest as [|n rest IH]; intros src cur prior e; cbn [addMajorRoute]; [nf|].
  apply nf_bind; [nf|]. intros c _. apply nf_bind; [nf|]. intros [ki|] _; [|nf].
  destruct rest; [nf|]. apply nf_bind; [nf|]. intros k _. apply IH.
Qed.
#[export] Hint Resolve nf_addMajorRoute : nf.
Lemma nf_insertMajor S o src hub r d e : NF (insertMajorRoutesForLocation S o src hub r d e).
Proof.
  unfold insertMajorRoutesForLocation. apply nf_bind; [nf|]. intros l _. apply nf_foldM.
  intros s a _. destruct a; [nf|]. match goal with |- NF (if ?b then _ else _) => destruct b end; nf.
Qed.
#[export] Hint Resolve nf_insertMajor : nf.
Lemma nf_insertAllMajor S o src e : NF (insertAllMajorRoutes S o src e).
Proof.
  unfold insertAllMajorRoutes. apply nf_bind; [nf|]. intros l _.
  apply nf_bind; [apply nf_mapM; intros; nf|]. intros d _. cbv zeta.
  apply nf_bind; [nf|]. intros e1 _. apply nf_foldM. intros e2 rn _. nf.
Qed.
#[export] Hint Resolve nf_insertAllMajor : nf.

Lemma nf_generate S o src e g : NF (generateLocationRoutes S o src e g).
Proof.
  unfold generateLocationRoutes. apply nf_bind; [nf|]. intros l Hl. destruct (l_marker l); [nf|]. cbv zeta.
  destruct (_ =? 0)%Z; [nf|]. apply nf_bind; [|intros; nf].
  set (e0 := up_loc src _ e).
  apply (nf_foldM_inv (Rt src e0)); [auto| |].
  - intros e' ki _ R. apply (crawl_terminates S o src e0); [exact R| |unfold route_fuel; lia].
    intros k ep _ _. unfold measure, route_fuel.
    assert (L : List.length (e_locations e') = List.length (e_locations e0)).
    { destruct R as [r ->]. cbn. apply upd_length. }
    rewrite L.
    assert (fresh e0 [lname l] <= List.length (e_locations e0))%nat by apply filter_length.
    destruct (mem_str _ _); lia.
  - intros e1 ki e2 _ R Hs. eapply rt_trans; [exact R|]. eapply rt_crawlLink; eauto.
Qed.
#[export] Hint Resolve nf_generate : nf.

Lemma nf_conflict_decay S t l : NF (get_location_conflict_decay S t l).
Proof. unfold get_location_conflict_decay, get_conflict_decay. cbv zeta. nf. Qed.
#[export] Hint Resolve nf_conflict_decay : nf.
Lemma nf_locationScore S o d t l : NF (locationScore S o d t l).
Proof.
  unfold locationScore, flood_zone_factor. cbv zeta.
  repeat first [apply nf_forecast; intro; nf | progress nf].
Qed.
#[export] Hint Resolve nf_locationScore : nf.
Lemma nf_updateLocationScore S o t i e g : NF (updateLocationScore S o t i e g).
Proof. unfold updateLocationScore. cbv zeta. nf. Qed.
#[export] Hint Resolve nf_updateLocationScore : nf.
Lemma nf_update_scores S o e g : NF (update_scores S o e g).
Proof. apply nf_foldM. intros [e1 g1] i _. nf. Qed.

(** ** The other parts of a time step *)

Lemma nf_refresh S e : NF (refresh_spawn_weights S e).
Proof. unfold refresh_spawn_weights. apply nf_bind; [|intros; nf]. apply nf_mapM. intros l _. unfold spawn_weight. nf. Qed.
Lemma nf_write_links S e : NF (write_links S e).
Proof. unfold write_links. apply nf_bind; [|intros; nf]. apply nf_mapM. intros ki _. unfold link_rows. nf. Qed.
Lemma nf_link_name e k : NF (link_name e k). Proof. unfold link_name. nf. Qed.
Lemma nf_link_xy e k : NF (link_xy e k). Proof. unfold link_xy. nf. Qed.
Lemma nf_mk_row e t h n a nm xy : NF (mk_row e t h n a nm xy). Proof. unfold mk_row. nf. Qed.
#[export] Hint Resolve nf_link_name nf_link_xy nf_mk_row : nf.
Lemma nf_hop_rows S e t n a ks : forall h, NF (hop_rows S e t n a h ks).
Proof. induction ks; intro h; cbn [hop_rows]; nf. Qed.
#[export] Hint Resolve nf_hop_rows : nf.
Lemma nf_agent_rows S e t n a : NF (agent_rows S e t n a).
Proof. unfold agent_rows, place_of. nf. Qed.
#[export] Hint Resolve nf_agent_rows : nf.
Lemma nf_all_agent_rows S e t l : forall n, NF (all_agent_rows S e t n l).
Proof. induction l; intro n; cbn [all_agent_rows]; nf. Qed.
#[export] Hint Resolve nf_all_agent_rows : nf.
Lemma nf_write_agents S e : NF (write_agents S e).
Proof. unfold write_agents. nf. Qed.
Lemma nf_update_recent S e : NF (update_recent S e).
Proof. unfold update_recent. apply nf_bind; [|intros; nf]. apply nf_mapM. intros; nf. Qed.
Lemma nf_deactivate S e g : NF (deactivate S e g).
Proof.
  unfold deactivate. destruct (s_camps_are_sinks S); [|nf]. apply nf_foldM. intros [e1 g1] ai _. nf.
Qed.
Lemma nf_evolve_agents S o e g : NF (evolve_agents S o e g).
Proof. unfold evolve_agents. apply nf_foldM. intros [e1 g1] ai _. cbv zeta. nf. Qed.
#[export] Hint Resolve nf_refresh nf_update_scores nf_write_links nf_write_agents nf_update_recent nf_deactivate nf_evolve_agents : nf.

Lemma inject_nat_le a b : (a <= b)%nat -> inject_Z (Z.of_nat a) <= inject_Z (Z.of_nat b).
Proof. intro. rewrite <- Zle_Qle. lia. Qed.

(** An agent that may start its day in [e0] *)
Definition ready (e0 : eco) (a : agent) : Prop :=
  gone_of a = None -> settled_agent e0 a.

Lemma nf_finish_agents S o e0 g m0 v n fuel :
  Inv e0 -> rng_ok g -> bounded S e0 m0 v -> 0 < m0 -> v <= inject_Z (Z.of_nat n) * m0 -> (n < fuel)%nat ->
  (forall a, In a (e_agents e0) -> ready e0 a) ->
  NF (finish_agents fuel S o e0 g).
Proof.
  intros I G Bd Pos Lv Lf Rd. unfold finish_agents.
  apply (nf_fold_seq (fun k (st : eco * rng) => Inv (fst st) /\ Net e0 (fst st) /\ rng_ok (snd st) /\
    forall ai a, (k <= ai)%nat -> nth_error (e_agents (fst st)) ai = Some a -> ready e0 a)).
  - cbn. split; [assumption|]. split; [auto|]. split; [assumption|]. intros ai a _ Ha. apply Rd. eapply nth_error_In; eauto.
  - intros ai [e1 g1] _ (I1 & N1 & G1 & R1). cbn [fst snd] in *. unfold agent_of.
    destruct (nth_error (e_agents e1) ai) as [a|] eqn:Ha; cbn [of_option bind]; [|nf].
    assert (X : gone_of a = None -> NF (finish_travel fuel S o (e_time e1) ai e1 g1)).
    { intro NG. destruct (R1 ai a (Nat.le_refl _) Ha NG) as [M0 Lx].
      apply (nf_finish S o (e_time e1) ai m0 v fuel e1 g1 a I1 G1); auto; [eapply bounded_net; eauto|].
      intros ki k L K. destruct fuel as [|f]; [lia|]. exists f. split; [reflexivity|].
      destruct (net_link _ _ _ _ (net_sym _ _ N1) K) as (k0 & K0 & _ & Ed). rewrite <- Ed.
      specialize (Lx ki k0 L K0). split; [assumption|]. rewrite M0.
      assert (inject_Z (Z.of_nat n) <= inject_Z (Z.of_nat f)) by (apply inject_nat_le; lia).
      assert (inject_Z (Z.of_nat n) * m0 <= inject_Z (Z.of_nat f) * m0) by (apply Qmult_le_compat_r; lra).
      lra. }
    unfold gone_of in X. destruct (a_location a); [apply nf_bind; [apply X; reflexivity|intros; nf]..|nf].
  - intros ai [e1 g1] [e2 g2] _ (I1 & N1 & G1 & R1) H. cbn [fst snd] in *. unfold agent_of in H.
    rstep H. apply of_option_ok in E. rename v0 into a.
    assert (X : (e2, g2) = (e1, g1) \/ (gone_of a = None /\ exists e3,
      finish_travel fuel S o (e_time e1) ai e1 g1 = Ok (e3, g2) /\
      e2 = up_agent ai (up_a_timesteps_since_departure (fun z => z + 1)%Z) e3)).
    { unfold gone_of. destruct (a_location a);
      [right; split; auto; rstep H; destruct v0; rinv H; eauto..|left; injection H as <- <-; reflexivity]. }
    destruct X as [X|(NG & e3 & X & ->)].
    + injection X as -> ->. do 3 (split; [assumption|]). intros aj b Hj Hb. apply (R1 aj); [lia|assumption].
    + destruct (finish_travel_day _ _ _ _ _ _ _ _ _ _ I1 G1 X E NG) as (M & St & _).
      split; [eapply inv_same; [apply same_up_agent; reflexivity|]; eapply inv_finish_travel; eauto|].
      assert (M2 : Mv ai e1 (up_agent ai (up_a_timesteps_since_departure (fun z => z + 1)%Z) e3))
        by (eapply mv_trans; [exact M|apply mv_up_agent]).
      split; [eapply net_trans; [exact N1|eapply net_mv; eauto]|]. split; [eapply streams_ok; eauto|].
      intros aj b Hj Hb. rewrite (mv_others _ _ _ M2 aj) in Hb by lia. apply (R1 aj); [lia|assumption].
Qed.

Lemma settled_agent_net e e' a : Net e e' -> settled_agent e a -> settled_agent e' a.
Proof.
  intros N [A B]. split; [assumption|]. intros ki k L K.
  destruct (net_link _ _ _ _ (net_sym _ _ N) K) as (k0 & K0 & _ & Ed). rewrite <- Ed. eauto.
Qed.

(** A time step with link lengths at least [m0] and speeds at most [v] takes at most
    [n + 1] hops per agent, for any [n] with [v <= n * m0]. *)
Theorem evolve_terminates S o e g m0 v n fuel :
  Inv e -> rng_ok g -> settled e -> bounded S e m0 v -> 0 < m0 -> v <= inject_Z (Z.of_nat n) * m0 ->
  (n < fuel)%nat -> NF (evolve fuel S o e g).
Proof.
  intros I G Se Bd Pos Lv Lf. unfold evolve. apply nf_bind; [nf|]. intros e0 E0.
  assert (N0 : Net e e0) by (unfold refresh_spawn_weights in E0; rinv E0; split; reflexivity).
  assert (A0 : e_agents e0 = e_agents e) by (unfold refresh_spawn_weights in E0; rinv E0; reflexivity).
  assert (I0 : Inv e0) by (eapply inv_same; [eapply sl_same, still_refresh; eauto|assumption]).
  apply nf_bind; [nf|]. intros [e1 g1] E1.
  pose proof (sl_same _ _ (still_update_scores _ _ _ _ _ _ E1)) as Sm1.
  pose proof (sl_agents _ _ (still_update_scores _ _ _ _ _ _ E1)) as A1.
  assert (I1 : Inv e1) by (eapply inv_same; eauto).
  apply sc_update_scores in E1 as [N1 St1]. apply net_sc in N1.
  apply nf_bind; [nf|]. intros [e2 g2] E2.
  destruct (evolve_agents_decided _ _ _ _ _ _ I1 E2) as (I2 & N2 & St2 & D2).
  assert (N02 : Net e e2) by (eapply net_trans; [exact N0|]; eapply net_trans; eauto).
  apply nf_bind; [|intros [e3 g3] _; cbv zeta; nf].
  apply (nf_finish_agents S o e2 g2 m0 v n fuel I2); auto.
  - eapply streams_ok; [|exact G]. eapply streams_trans; eauto.
  - eapply bounded_net; eauto.
  - intros a2 Hin NG. apply In_nth_error in Hin as [ai Ha2].
    assert (L2 : List.length (e_agents e2) = List.length (e_agents e1)).
    { pose proof (turn_evolve_agents _ _ _ _ _ _ E2) as [_ _ V]. eapply map_eq_length; eauto. }
    destruct (nth_error_ex (e_agents e1) ai) as [a Ha]. { apply nth_error_lt in Ha2. lia. }
    destruct (D2 ai a Ha) as (a2' & Ha2' & Gn & Dd & _). assert (a2' = a2) as -> by congruence.
    destruct Dd as (b & U & Db). { congruence. }
    assert (Sb : settled_agent e2 b).
    { apply (settled_agent_net e); [exact N02|]. rewrite A1, A0 in Ha. apply nth_error_In in Ha.
      specialize (Se a Ha). destruct a, b. unfold unvisited in U. cbn in U.
      injection U as <- <- <- <- <- <- <- <- <- <- <-. exact Se. }
    destruct Db as [->|(i & rest & L & T & [->|(ki & k & O & ->)])]; [exact Sb|destruct Sb as [S1 S2]; split; cbn; auto..].
    intros kj kk _ Kk. assert (Bd2 : bounded S e2 m0 v) by (eapply bounded_net; eauto).
      destruct (Bd2 kj kk Kk) as [B1 _]. lra.
Qed.

(** ** More fuel does not change the result *)

Lemma finish_more S o t ai fuel : forall fuel' e g, (fuel <= fuel')%nat ->
  NF (finish_travel fuel S o t ai e g) -> finish_travel fuel' S o t ai e g = finish_travel fuel S o t ai e g.
Proof.
  induction fuel as [|fuel IH]; intros fuel' e g L H.
  - destruct fuel'; [reflexivity|]. cbn [finish_travel] in *.
    destruct (agent_of e ai) as [a|]; cbn [bind] in *; [|reflexivity].
    destruct (a_travelling a); cbn [negb] in *; [now destruct H|reflexivity].
  - destruct fuel' as [|fuel']; [lia|]. cbn [finish_travel] in *.
    destruct (agent_of e ai) as [a|]; cbn [bind] in *; [|reflexivity].
    destruct (a_travelling a); cbn [negb] in *; [|reflexivity].
    destruct (a_location a) as [|ki|]; try reflexivity.
    destruct (link_of e ki) as [k|]; cbn [bind] in *; [|reflexivity].
    destruct (travel_speed S e a k g) as [[s g1]|]; cbn [bind] in *; [|reflexivity]. cbv zeta in *.
    destruct (Qltb (k_distance k) _); [|reflexivity].
    destruct (k_closed k); [reflexivity|].
    match type of H with NF (bind ?m _) => destruct m as [e4|]; cbn [bind] in *; [|reflexivity] end.
    destruct (loc_of e4 _) as [ep|]; cbn [bind] in *; [|reflexivity].
    match type of H with NF (if ?b then _ else _) => destruct b end; [|reflexivity].
    match type of H with NF (bind ?m _) => destruct m as [r|]; cbn [bind] in *; [|reflexivity] end.
    match type of H with NF (bind ?m _) => destruct m as [[e6 g2]|]; cbn [bind] in *; [|reflexivity] end.
    apply IH; [lia|assumption].
Qed.

Lemma foldM_more {A St} (f f' : St -> A -> res St) l : forall s,
  (forall s a, NF (f s a) -> f' s a = f s a) -> NF (foldM f l s) -> foldM f' l s = foldM f l s.
Proof.
  induction l as [|a l IH]; intros s H N; cbn in *; [reflexivity|].
  rewrite (H s a). 2: { intro E. apply N. now rewrite E. }
  destruct (f s a); cbn [bind] in *; [|reflexivity]. now apply IH.
Qed.

Theorem evolve_more S o e g fuel fuel' : (fuel <= fuel')%nat -> NF (evolve fuel S o e g) ->
  evolve fuel' S o e g = evolve fuel S o e g.
Proof.
  intros L H. unfold evolve in *.
  destruct (refresh_spawn_weights S e) as [e0|]; cbn [bind] in *; [|reflexivity].
  destruct (update_scores S o e0 g) as [[e1 g1]|]; cbn [bind] in *; [|reflexivity].
  destruct (evolve_agents S o e1 g1) as [[e2 g2]|]; cbn [bind] in *; [|reflexivity].
  assert (X : finish_agents fuel' S o e2 g2 = finish_agents fuel S o e2 g2).
  { unfold finish_agents in *. apply foldM_more.
    - intros [e3 g3] ai N. destruct (agent_of e3 ai) as [a|]; cbn [bind] in *; [|reflexivity].
      destruct (a_location a); try reflexivity;
        (rewrite (finish_more S o (e_time e3) ai fuel fuel' e3 g3 L); [reflexivity|]; intro E; apply N; now rewrite E).
    - intro E. apply H. now rewrite E. }
  now rewrite X.
Qed.
