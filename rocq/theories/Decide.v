(** * Decide: Person.evolve refines [SpecDecide] *)

From Coq Require Import Lia Lqa.
From Verif Require Import Base State Moving Crawling Scoring Diagnostics Flee DataTable
  Spawning InputGeography Api SpecAgents SpecChoice SpecRoutes SpecTravel SpecDecide Lemmas Inv InvMoves InvStruct
  ScoreFrames ChoiceProofs RouteProofs Travel.
Local Open Scope Q_scope.

Lemma rtok_is_spec n t : rtok_is n t = true <-> t = RName n.
Proof.
  destruct t as [s|z]; cbn; [|split; discriminate]. rewrite String.eqb_eq. split; congruence.
Qed.

Lemma nth_skipn {A} (l : list A) i j : nth_error (skipn i l) j = nth_error l (i + j).
Proof. revert l; induction i as [|i IH]; intros [|a l]; cbn; auto. now destruct j. Qed.

Lemma skipn_next {A} (l l' : list A) a i : skipn i l = a :: l' -> skipn (Datatypes.S i) l = l'.
Proof.
  revert l; induction i as [|i IH]; intros [|x l] H; try discriminate.
  - injection H as _ <-. reflexivity.
  - exact (IH l H).
Qed.

Lemma dest_full_gen S e n : forall names i b, skipn i (map l_name (e_locations e)) = names ->
  (forall j, (j < i)%nat -> name_at e j <> n) ->
  dest_is_full_camp S e (RName n) i names = Ok b -> (b = true <-> full_camp S e n).
Proof.
  induction names as [|m names IH]; intros i b Sk Before H; cbn [dest_is_full_camp] in H; [discriminate|].
  assert (Hm : nth_error (map l_name (e_locations e)) i = Some m).
  { rewrite <- (Nat.add_0_r i), <- nth_skipn, Sk. reflexivity. }
  rewrite nth_error_map in Hm. destruct (nth_error (e_locations e) i) as [l|] eqn:Hl; [|discriminate].
  injection Hm as Hm. destruct (rtok_is (sval m) (RName n)) eqn:R.
  - apply rtok_is_spec in R. injection R as R. unfold loc_of in H. rewrite Hl in H. cbn [of_option bind] in H.
    assert (U : forall i2 l2, nth_error (e_locations e) i2 = Some l2 -> sval (l_name l2) = n ->
                (forall j, (j < i2)%nat -> name_at e j <> n) -> i2 = i).
    { intros i2 l2 H2 N2 B2. destruct (Nat.lt_trichotomy i2 i) as [Lt|[Eq|Gt]]; auto; exfalso.
      - apply (Before i2 Lt). unfold name_at. now rewrite H2.
      - apply (B2 i Gt). unfold name_at. rewrite Hl. congruence. }
    destruct (l_camp l) eqn:C.
    + rstep H. injection H as <-. split.
      * intro Q0. qb. exists i, l, v. apply room_ok in E. do 5 (split; [congruence || assumption|]). assumption.
      * intros (i2 & l2 & c & H2 & N2 & B2 & C2 & E2 & L2). assert (i2 = i) as -> by (eapply U; eauto).
        assert (l2 = l) as -> by congruence. apply Qltb_true. apply room_back in E2 as (c' & E2 & L3). assert (c' = v) as -> by congruence. now rewrite L3.
    + injection H as <-. split; [discriminate|]. intros (i2 & l2 & c & H2 & N2 & B2 & C2 & _).
      assert (i2 = i) as -> by (eapply U; eauto). congruence.
  - apply (IH (Datatypes.S i)); auto.
    + eapply skipn_next; eauto.
    + intros j Hj. destruct (Nat.eq_dec j i) as [->|]; [|apply Before; lia].
      unfold name_at. rewrite Hl. intro E. rewrite Hm in E. rewrite E in R. cbn in R. rewrite String.eqb_refl in R. discriminate.
Qed.

Lemma dest_full S e n b : Struct e -> dest_is_full_camp S e (RName n) 0 (e_locationNames e) = Ok b ->
  (b = true <-> full_camp S e n).
Proof. intros St H. rewrite (st_names _ St) in H. eapply dest_full_gen; [..|exact H]; auto. intros; lia. Qed.

Lemma dest_full_idx S e z names i : dest_is_full_camp S e (RIdx z) i names = Err SystemExit.
Proof. revert i; induction names; intro i; cbn; auto. Qed.

(** Take the first link whose end point has the name of the next stop. *)
Lemma take_next_spec S e r0 rest : forall links d rest',
  take_next_step S e (Some (r0 :: rest)) links = Ok (d, rest') ->
  (d = None /\ rest' = [] /\
   (forall ki k ep, In ki links -> nth_error (e_links e) ki = Some k ->
      nth_error (e_locations e) (k_endpoint k) = Some ep -> r0 <> RName (lname ep))) \/
  (exists ki k ep full, In ki links /\ nth_error (e_links e) ki = Some k /\
     nth_error (e_locations e) (k_endpoint k) = Some ep /\ r0 = RName (lname ep) /\
     dest_is_full_camp S e (List.last (r0 :: rest) r0) 0 (e_locationNames e) = Ok full /\
     ((full = true /\ d = None /\ rest' = []) \/ (full = false /\ d = Some ki /\ rest' = rest))).
Proof.
  induction links as [|ki links IH]; intros d rest' H; cbn [take_next_step] in H.
  - injection H as <- <-. left. repeat split; auto.
  - unfold link_of, endpoint_of, loc_of in H. rstep H. apply of_option_ok in E. rstep H. apply of_option_ok in E0.
    destruct (rtok_is (lname v0) r0) eqn:R.
    + apply rtok_is_spec in R. rstep H. right. exists ki, v, v0, v1. split; [now left|]. do 4 (split; [assumption || reflexivity|]).
      destruct v1; injection H as <- <-; auto.
    + destruct (IH d rest' H) as [(-> & -> & N)|(k2 & k & ep & full & Hin & Rest)].
      * left. do 2 (split; [reflexivity|]). intros k2 k ep [<-|Hin] K Ep; [|eauto].
        assert (k = v) as -> by congruence. assert (ep = v0) as -> by congruence.
        intro Q0. apply rtok_is_spec in Q0. congruence.
      * right. exists k2, k, ep, full. split; [now right|assumption].
Qed.

Theorem decision S o t f ai e g e' g' a i l mc : Inv e -> 
  person_evolve S o t f ai e g = Ok (e', g') ->
  nth_error (e_agents e) ai = Some a -> a_location a = PLoc i -> nth_error (e_locations e) i = Some l ->
  calculateMoveChance S o e a l f t = Ok mc ->
  (mc <= next_draw g -> e' = e) /\
  (next_draw g < mc ->
   exists plan a', plan_used S o e a l t (snd (rng_u g)) plan /\ nth_error (e_agents e') ai = Some a' /\
     match plan with
     | None | Some [] => l_links l = [] /\ stays_put a a'
     | Some (r0 :: rest) =>
         ((forall n, r0 = RName n -> ~ leads_to e i n) /\ stays_put a a') \/
         (exists n dest, r0 = RName n /\ leads_to e i n /\
            List.last (r0 :: rest) r0 = RName dest /\
            ((full_camp S e dest /\ stays_put a a') \/
             (~ full_camp S e dest /\ exists ki k, open_link e i ki k /\ name_at e (k_endpoint k) = n /\
                sets_out a a' ki rest)))
     end).
Proof.
  intros I H Ha L Hl Mc.
  pose proof (i_agents _ I a (nth_error_In _ _ Ha)) as [_ AO]. rewrite L in AO. destruct AO as [_ T].
  unfold person_evolve, agent_of, loc_of in H. rewrite Ha in H. cbn [of_option bind] in H.
  rewrite T, L, Hl in H. cbn [of_option bind] in H. rewrite Mc in H. cbn [bind] in H.
  unfold next_draw. destruct (rng_u g) as [u g1] eqn:Eu.
  assert (g_u g (g_i g) = u) as Gu by (unfold rng_u in Eu; now injection Eu).
  rewrite Gu. cbn [snd].
  split; intro B.
  - assert (Qltb u mc = false) as Q0 by now apply Qltb_false. rewrite Q0 in H. now injection H as <- _.
  - assert (Qltb u mc = true) as Q0 by now apply Qltb_true. rewrite Q0 in H. clear Q0.
    rstep H. destruct v as [plan g2]. rstep H. destruct v as [d rest'].
    exists plan.
    assert (PU : plan_used S o e a l t g1 plan).
    { unfold plan_used. destruct (a_route a) as [[|r0 rt]|]; [eauto| injection E as <- _; reflexivity|discriminate]. }
    assert (Stay : d = None -> rest' = [] -> exists a', nth_error (e_agents e') ai = Some a' /\ stays_put a a').
    { intros -> ->. injection H as <- _. cbn [up_agent up_e_agents e_agents]. rewrite nth_upd_same, Ha.
      eexists; split; [reflexivity|]. repeat split; auto. }
    destruct plan as [[|r0 rest]|].
    + assert (l_links l = []) as Nl.
      { destruct (l_links l); [reflexivity|]. cbn [take_next_step] in E0. rstep E0. rstep E0. discriminate. }
      rewrite Nl in E0. injection E0 as <- <-. destruct Stay as (a' & Ha' & St); auto. exists a'. auto.
    + destruct (take_next_spec _ _ _ _ _ _ _ E0) as [(-> & -> & N)|(ki & k & ep & full & Hin & K & Ep & R0 & Df & C)].
      * destruct Stay as (a' & Ha' & St); auto. exists a'. split; [assumption|]. split; [assumption|]. left. split; [|assumption].
        intros n -> (ki & k & (l0 & Hl0 & Hin & K) & Nm). assert (l0 = l) as -> by congruence.
        destruct (st_link _ (i_struct _ I) ki k K) as (_ & Be & _). destruct (nth_error_ex _ _ Be) as [ep Ep].
        apply (N ki k ep Hin K Ep). unfold name_at in Nm. rewrite Ep in Nm. unfold lname. congruence.
      * assert (LT : leads_to e i (lname ep)).
        { exists ki, k. split; [exists l; auto|]. unfold name_at. now rewrite Ep. }
        assert (Dn : exists dest, List.last (r0 :: rest) r0 = RName dest).
        { destruct (List.last (r0 :: rest) r0) as [s|z]; [eauto|]. rewrite dest_full_idx in Df. discriminate. }
        destruct Dn as [dest Dn]. rewrite Dn in Df. pose proof (dest_full _ _ _ _ (i_struct _ I) Df) as FC.
        destruct C as [(-> & -> & ->)|(-> & -> & ->)].
        -- destruct Stay as (a' & Ha' & St); auto. exists a'. split; [assumption|]. split; [assumption|].
           right. exists (lname ep), dest. do 3 (split; [assumption|]). left. split; [now apply FC|assumption].
        -- rstep H. injection H as <- _.
           apply mv_handle_travel in E1 as [_ U]. eexists. rewrite U. cbn [up_agent up_e_agents e_agents].
           rewrite nth_upd_same, nth_upd_same, Ha. split; [assumption|]. split; [reflexivity|].
           right. exists (lname ep), dest. do 3 (split; [assumption|]). right. split.
           { intro Q0. apply FC in Q0. discriminate. }
           exists ki, k. split; [exists l; auto|]. split; [unfold name_at; now rewrite Ep|]. repeat split.
    + assert (l_links l = []) as Nl.
      { destruct (l_links l); [reflexivity|]. cbn [take_next_step] in E0. rstep E0. rstep E0. discriminate. }
      rewrite Nl in E0. injection E0 as <- <-. destruct Stay as (a' & Ha' & St); auto. exists a'. auto.
Qed.
