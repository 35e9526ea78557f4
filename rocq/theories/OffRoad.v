(** * OffRoad: a link that belongs to no location is never entered again *)

From Coq Require Import Lia Lqa.
From Verif Require Import Base State Moving Crawling Scoring Diagnostics Flee DataTable
  Spawning InputGeography Api SpecAgents SpecHistory SpecRoutes SpecTravel SpecClosures Lemmas Inv InvMoves InvStruct
  ScoreFrames RouteProofs Traffic Frames CoreProofs StepRel Travel Streams Terminate TravelRun Terminate2 TravelProps Detached.

(** Only new link objects are added to the lists of the locations. *)
Definition Lst (e e' : eco) : Prop :=
  (List.length (e_links e) <= List.length (e_links e'))%nat /\
  forall ki, listed e' ki -> listed e ki \/ (List.length (e_links e) <= ki)%nat.

Lemma lst_refl e : Lst e e. Proof. split; auto. Qed.
Lemma lst_trans a b c : Lst a b -> Lst b c -> Lst a c.
Proof.
  intros [A1 A2] [B1 B2]. split; [lia|]. intros ki H. destruct (B2 ki H) as [X|X]; [auto|right; lia].
Qed.

Definition llists (l : location) := (l_links l, l_closed_links l).
Lemma lst_frame e e' : (List.length (e_links e) <= List.length (e_links e'))%nat ->
  map llists (e_locations e') = map llists (e_locations e) -> Lst e e'.
Proof.
  intros L M. split; [assumption|]. intros ki (l & Hl & H). left. apply In_nth_error in Hl as [i Hi].
  destruct (map_eq_nth llists llists _ _ i l (eq_sym M) Hi) as (l' & Hl' & E). exists l'. split; [eapply nth_error_In; eauto|].
  injection E as E1 E2. now rewrite E1, E2.
Qed.
Lemma lst_frame2 e e' : (List.length (e_links e) <= List.length (e_links e'))%nat ->
  map l_links (e_locations e') = map l_links (e_locations e) ->
  map l_closed_links (e_locations e') = map l_closed_links (e_locations e) -> Lst e e'.
Proof.
  intros L M1 M2. split; [assumption|]. intros ki (l & Hl & H). left. apply In_nth_error in Hl as [i Hi].
  destruct (map_eq_nth l_links l_links _ _ i l (eq_sym M1) Hi) as (l' & Hl' & E1).
  destruct (map_eq_nth l_closed_links l_closed_links _ _ i l (eq_sym M2) Hi) as (l2 & Hl2 & E2).
  assert (l2 = l') as -> by congruence.
  exists l'. split; [eapply nth_error_In; eauto|]. now rewrite E1, E2.
Qed.
Lemma lst_net e e' : Net e e' -> Lst e e'.
Proof. intros [A B C _ _]. apply lst_frame2; auto. apply map_eq_length in C. lia. Qed.
Lemma lst_same e e' : SameStruct e e' -> Lst e e'.
Proof.
  intros [_ _ L K _ _]. apply lst_frame2.
  - apply map_eq_length in K. lia.
  - exact (map_via lstruct (fun x => snd (fst (fst x))) _ _ L).
  - exact (map_via lstruct (fun x => snd (fst x)) _ _ L).
Qed.

Lemma llists_up_loc i f e : (forall l, llists (f l) = llists l) -> map llists (e_locations (up_loc i f e)) = map llists (e_locations e).
Proof. intro H. cbn [up_loc up_e_locations e_locations]. now apply map_upd. Qed.

Lemma lst_append i at_ e e' : append_agent i at_ e = Ok e' -> Lst e e'.
Proof.
  unfold append_agent; intro H; rstep H. injection H as <-. apply lst_frame; [cbn; lia|].
  rewrite llists_up_loc; [reflexivity|]. intro l; unfold loc_add. destruct (e_par e); reflexivity.
Qed.
Lemma lst_dec p e e' : dec_at p e = Ok e' -> Lst e e'.
Proof. intro H. apply (mv_dec 0) in H. apply lst_net, (net_mv 0), H. Qed.
Lemma lst_clear ns e e' : clear_locations ns e = Ok e' -> Lst e e'.
Proof.
  unfold clear_locations; intro E. rstep E. injection E as <-.
  eapply lst_trans with v; [|apply lst_frame; [cbn; lia|reflexivity]].
  eapply (foldM_rel Lst) in E0; [exact E0|auto using lst_refl|eauto using lst_trans|].
  intros s a s' _ Hs. rstep Hs. rstep Hs; [|discriminate]. eapply lst_dec; eauto.
Qed.
Lemma lst_add_location S o n r x y lt mc cap pop f c at_ e g e' g' :
  add_location S o n r x y lt mc cap pop f c at_ e g = Ok (e', g') -> Lst e e'.
Proof.
  unfold add_location; intro H.
  rstep H. rstep H. cbv zeta in H. rstep H. rstep H. destruct v1 as [e1 g1]. rstep H. injection H as <- <-.
  assert (Q0 : e_links a = e_links e /\ e_locations a = e_locations e) by (destruct at_; inversion Heqp; subst; auto).
  destruct Q0 as [Q0 Q0'].
  apply new_location_new in E0.
  eapply lst_trans with (up_e_locations (fun ls => ls ++ [v0]) a).
  - split; [cbn; rewrite Q0; lia|]. intros ki (l & Hl & Hk). left. cbn in Hl. rewrite Q0' in Hl.
    apply in_app_or in Hl as [Hl|[<-|[]]]; [exists l; auto|]. destruct E0 as (E0 & _). injection E0 as _ X1 X2 _.
    rewrite X1, X2 in Hk. destruct Hk as [[]|[]].
  - eapply lst_trans; [eapply lst_same, s_struct, sl_same, still_updateLocationScore; eauto|].
    eapply lst_trans; [|eapply lst_same, s_struct, sl_same, still_refresh; eauto].
    apply lst_frame; [cbn; lia|reflexivity].
Qed.

Lemma lst_kapp i k e : Lst e (kapp i k e).
Proof.
  unfold kapp. split; [cbn; rewrite app_length; cbn; lia|]. intros ki (l & Hl & H).
  cbn [up_loc up_e_locations up_e_links e_locations] in Hl. apply In_nth_error in Hl as [j Hj]. rewrite nth_upd in Hj.
  destruct (nth_error (e_locations e) j) as [l0|] eqn:E; [|destruct (_ =? _)%nat; discriminate].
  destruct (_ =? _)%nat; injection Hj as <-; [|left; exists l0; split; [eapply nth_error_In; eauto|assumption]].
  cbn in H. destruct H as [H|H]; [apply in_app_or in H as [H|[H|[]]]|].
  - left; exists l0; split; [eapply nth_error_In; eauto|auto].
  - right. lia.
  - left; exists l0; split; [eapply nth_error_In; eauto|auto].
Qed.
Lemma lst_link_up n1 n2 d f at_ e e' : link_up n1 n2 d f at_ e = Ok e' -> Lst e e'.
Proof.
  intro H. apply link_up_spec in H as (i1 & i2 & e0 & did & _ & _ & _ & _ & C & ->).
  assert (D0 : Lst e e0).
  { destruct C as [(-> & -> & ->)|(a & -> & -> & ->)]; [apply lst_refl|]. apply lst_frame; [cbn; lia|reflexivity]. }
  eapply lst_trans; [exact D0|]. eapply lst_trans; apply lst_kapp.
Qed.

Lemma lst_up_loc x f e ki : listed (up_loc x f e) ki ->
  listed e ki \/ exists l, nth_error (e_locations e) x = Some l /\ (In ki (l_links (f l)) \/ In ki (l_closed_links (f l))).
Proof.
  intros (l & Hl & H). cbn [up_loc up_e_locations e_locations] in Hl. apply In_nth_error in Hl as [j Hj]. rewrite nth_upd in Hj.
  destruct (nth_error (e_locations e) j) as [l0|] eqn:E; [|destruct (_ =? _)%nat; discriminate].
  destruct (Nat.eqb_spec x j) as [->|]; injection Hj as <-; [right; eauto|left].
  exists l0. split; [eapply nth_error_In; eauto|assumption].
Qed.

Lemma lst_remove s t co e e' b : remove_link_1way s t co e = Ok (e', b) -> Lst e e'.
Proof.
  unfold remove_link_1way; intro H. set (x := convert_name e s) in *. rstep H. rename v into l. unfold loc_of in E. apply of_option_ok in E.
  rstep H. destruct v as [[e1 nl] r]. injection H as <- <-.
  assert (X : Lst e e1 /\ forall z, In z nl -> In z (l_links l)).
  { eapply (foldM_inv (fun st => Lst e (fst (fst st)) /\ forall z, In z (snd (fst st)) -> In z (l_links l))) in E0;
      [exact E0| |split; [apply lst_refl|intros z []]].
    intros [[e2 l2] r2] ki [[e3 l3] r3] Hin [D2 Sub] Hs. unfold remove_step in Hs. cbn [fst snd] in *.
    rstep Hs. rstep Hs. rstep Hs; [injection Hs as <- <- _|rstep Hs; injection Hs as <- <- _].
    - split; [assumption|]. intros z Hz. apply in_app_or in Hz as [Hz|[<-|[]]]; auto.
    - split; [|assumption]. eapply lst_trans; [exact D2|]. split; [cbn; rewrite app_length, upd_length; lia|].
      intros kj Hk. apply lst_up_loc in Hk as [Hk|(l0 & Hl0 & Hk)]; [now left|]. cbn in Hl0, Hk.
      destruct Hk as [Hk|Hk]; [|apply in_app_or in Hk as [Hk|[Hk|[]]]].
      + left. exists l0. split; [eapply nth_error_In; eauto|auto].
      + left. exists l0. split; [eapply nth_error_In; eauto|auto].
      + right. lia.
    - split; [|assumption]. exact D2. }
  destruct X as [[A B] C]. split; [exact A|]. intros kj Hk. apply lst_up_loc in Hk as [Hk|(l0 & Hl0 & Hk)]; [auto|].
  cbn in Hk. destruct Hk as [Hk|Hk].
  - left. exists l. split; [eapply nth_error_In; eauto|auto].
  - apply B. exists l0. split; [eapply nth_error_In; eauto|auto].
Qed.

Lemma lst_reopen s t e e' b : reopen_link_1way s t e = Ok (e', b) -> Lst e e'.
Proof.
  unfold reopen_link_1way; intro H. set (x := convert_name e s) in *. rstep H. rename v into l. unfold loc_of in E. apply of_option_ok in E.
  rstep H. destruct v as [[e1 nl] r]. injection H as <- <-.
  assert (Hl : forall z, In z (l_closed_links l) -> listed e z). { intros z Hz. exists l. split; [eapply nth_error_In; eauto|auto]. }
  assert (X : Lst e e1 /\ forall z, In z nl -> In z (l_closed_links l)).
  { eapply (foldM_inv (fun st => Lst e (fst (fst st)) /\ forall z, In z (snd (fst st)) -> In z (l_closed_links l))) in E0;
      [exact E0| |split; [apply lst_refl|intros z []]].
    intros [[e2 l2] r2] ki [[e3 l3] r3] Hin [D2 Sub] Hs. unfold reopen_step in Hs. cbn [fst snd] in *.
    rstep Hs. rstep Hs. rstep Hs; injection Hs as <- <- _.
    - split; [assumption|]. intros z Hz. apply in_app_or in Hz as [Hz|[<-|[]]]; auto.
    - split; [|assumption]. destruct D2 as [D2 D3]. split; [cbn; rewrite upd_length; exact D2|].
      intros kj Hk. assert (Hk' : listed (up_loc x (up_l_links (fun ks => ks ++ [ki])) e2) kj) by exact Hk.
      apply lst_up_loc in Hk' as [Hk'|(l0 & Hl0 & Hk')]; [auto|]. cbn in Hk'.
      destruct Hk' as [Hk'|Hk']; [apply in_app_or in Hk' as [Hk'|[<-|[]]]|].
      + apply D3. exists l0. split; [eapply nth_error_In; eauto|auto].
      + left. auto.
      + apply D3. exists l0. split; [eapply nth_error_In; eauto|auto]. }
  destruct X as [[A B] C]. split; [exact A|]. intros kj Hk. apply lst_up_loc in Hk as [Hk|(l0 & Hl0 & Hk)]; [auto|].
  cbn in Hk. destruct Hk as [Hk|Hk].
  - apply B. exists l0. split; [eapply nth_error_In; eauto|auto].
  - left. auto.
Qed.

Lemma step_lst o S c e g e' g' : Inv e -> rng_ok g -> step o S c e g = Ok (e', g') -> Lst e e'.
Proof.
  intros I G H. destruct (is_evolve c) eqn:Ev.
  - destruct c; try discriminate. cbn in H. apply evolve_day in H as [N _]; auto. now apply lst_net.
  - eapply (step_rel Lst); [..|exact Ev|exact H]; intros; eauto using lst_refl, lst_trans, lst_add_location,
      lst_link_up, lst_append, lst_clear, lst_remove, lst_reopen.
    eapply lst_same, s_struct, sl_same; eauto.
Qed.

(** ** Nobody enters *)

Lemma off_kept e e' ki : Lst e e' -> off_road e ki -> off_road e' ki.
Proof. intros [A B] [C D]. split; [lia|]. intro H. destruct (B ki H) as [X|X]; [now apply D|lia]. Qed.

Lemma day_off S e ki m n p x m' n' p' x' : ~ listed e ki -> day S e m n p x m' n' p' x' -> p' = PLink ki -> p = PLink ki /\ n' = n.
Proof.
  intros N D. induction D; intro E; try discriminate.
  - auto.
  - destruct (IHD E) as [X _]. discriminate.
  - destruct (IHD E) as [X _]. injection X as ->. destruct N. destruct H as (l & Hl & Hin & _). exists l. split; [eapply nth_error_In; eauto|auto].
Qed.

Lemma step_off o S c e g e' g' ki ai a' : Inv e -> rng_ok g -> step o S c e g = Ok (e', g') -> off_road e ki ->
  nth_error (e_agents e') ai = Some a' -> a_location a' = PLink ki ->
  exists a, nth_error (e_agents e) ai = Some a /\ a_location a = PLink ki /\ a_places_travelled a = a_places_travelled a'.
Proof.
  intros I G H [_ N] Ha L. destruct (is_evolve c) eqn:Ev.
  - destruct c; try discriminate. cbn in H. destruct (evolve_day_all _ _ _ _ _ _ _ I G H) as (_ & _ & D1 & D2).
    destruct (evolve_agent_spec _ _ _ _ _ _ _ H) as (_ & _ & Ln & _).
    destruct (nth_error_ex (e_agents e) ai) as [a Ha0]. { apply nth_error_lt in Ha. lia. }
    exists a. split; [assumption|]. destruct (gone_of a) eqn:Ga.
    + destruct (D2 ai a Ha0) as (a2 & Ha2 & L2 & P & _); [congruence|]. assert (a2 = a') as -> by congruence. split; congruence.
    + destruct (D1 ai a Ha0 Ga) as (b & a2 & Ha2 & Dy & Lb & P & _). assert (a2 = a') as -> by congruence.
      assert (Lb' : a_location b = PLink ki). { destruct Lb as [Lb|(i & _ & Lb)]; congruence. }
      unfold day_of in Dy. rewrite Lb' in Dy. destruct (day_off _ _ _ _ _ _ _ _ _ _ _ N Dy eq_refl) as [X Y]. split; [assumption|congruence].
  - destruct (is_clear c) eqn:Cl.
    + destruct c; try discriminate. apply clear_empties in H. rewrite H in Ha. destruct ai; discriminate.
    + destruct (other_calls _ _ _ _ _ _ _ Ev Cl H) as (new & A & B). rewrite A in Ha.
      destruct (nth_error (e_agents e) ai) as [a|] eqn:E.
      * rewrite nth_error_app1 in Ha by (apply nth_error_lt in E; assumption). assert (a = a') as -> by congruence. eauto.
      * apply nth_error_None in E. rewrite nth_error_app2 in Ha by assumption. apply nth_error_In in Ha. apply B in Ha as [_ Ha]. congruence.
Qed.

Lemma run_off o h : forall e g e' g' ki ai a', Inv e -> rng_ok g -> run o h e g = Ok (e', g') -> off_road e ki ->
  nth_error (e_agents e') ai = Some a' -> a_location a' = PLink ki ->
  exists a, nth_error (e_agents e) ai = Some a /\ a_location a = PLink ki /\ a_places_travelled a = a_places_travelled a'.
Proof.
  induction h as [|c h IH]; intros e g e' g' ki ai a' I G H O Ha L.
  - unfold run in H; cbn in H. injection H as <- _. eauto.
  - apply run_cons in H as (e1 & g1 & H1 & H).
    assert (I1 : Inv e1) by (eapply step_inv; eauto).
    assert (G1 : rng_ok g1) by (eapply streams_ok; [eapply step_streams; eauto|assumption]).
    destruct (IH e1 g1 e' g' ki ai a' I1 G1 H (off_kept _ _ _ (step_lst _ _ _ _ _ _ _ I G H1) O) Ha L) as (a1 & Ha1 & L1 & P1).
    destruct (step_off _ _ _ _ _ _ _ _ _ _ I G H1 O Ha1 L1) as (a & Ha0 & L0 & P0). exists a. repeat split; auto. congruence.
Qed.

(** A link object that was open and is closed or removed now is off the road. *)
Lemma remove_off s t co e e' b i l ki k : Inv e -> remove_link_1way s t co e = Ok (e', b) ->
  nth_error (e_locations e) i = Some l -> In ki (l_links l) -> nth_error (e_links e) ki = Some k ->
  convert_name e s = i -> to_object e t k = true -> off_road e' ki.
Proof.
  intros I H Hl Hin K X T. pose proof (inv_remove_1way _ _ _ _ _ _ I H) as I'. split.
  { apply lst_remove in H as [L _]. apply nth_error_lt in K. lia. }
  unfold remove_link_1way in H. rewrite X in H. unfold loc_of in H. rewrite Hl in H. cbn [of_option bind] in H.
  rstep H. destruct v as [[e1 nl] r]. injection H as <- <-.
  assert (Y : (forall z, In z nl -> In z (l_links l) /\ z <> ki) /\ List.length (e_locations e1) = List.length (e_locations e) /\
    map l_name (e_locations e1) = map l_name (e_locations e) /\
    (forall kj k, nth_error (e_links e) kj = Some k -> exists k1, nth_error (e_links e1) kj = Some k1 /\ k_endpoint k1 = k_endpoint k /\ k_startpoint k1 = k_startpoint k) /\
    (List.length (e_links e) <= List.length (e_links e1))%nat /\
    forall j lj, nth_error (e_locations e1) j = Some lj -> exists l0, nth_error (e_locations e) j = Some l0 /\ l_links lj = l_links l0 /\
       forall z, In z (l_closed_links lj) -> In z (l_closed_links l0) \/ (List.length (e_links e) <= z)%nat).
  { eapply (foldM_inv (fun st => (forall z, In z (snd (fst st)) -> In z (l_links l) /\ z <> ki) /\
       List.length (e_locations (fst (fst st))) = List.length (e_locations e) /\
       map l_name (e_locations (fst (fst st))) = map l_name (e_locations e) /\
       (forall kj k, nth_error (e_links e) kj = Some k -> exists k1, nth_error (e_links (fst (fst st))) kj = Some k1 /\ k_endpoint k1 = k_endpoint k /\ k_startpoint k1 = k_startpoint k) /\
       (List.length (e_links e) <= List.length (e_links (fst (fst st))))%nat /\
       forall j lj, nth_error (e_locations (fst (fst st))) j = Some lj -> exists l0, nth_error (e_locations e) j = Some l0 /\ l_links lj = l_links l0 /\
         forall z, In z (l_closed_links lj) -> In z (l_closed_links l0) \/ (List.length (e_links e) <= z)%nat)) in E; [exact E| |].
    2:{ cbn [fst snd]. split; [intros z []|]. do 2 (split; [reflexivity|]). split; [eauto|]. split; [lia|]. intros j lj Hj. exists lj. auto. }
    intros [[e2 l2] r2] kj [[e3 l3] r3] Hkj (A & B & C & D & Le & F) Hs. unfold remove_step, link_of, endpoint_of, loc_of in Hs. cbn [fst snd] in *.
    rstep Hs. apply of_option_ok in E0. rstep Hs. apply of_option_ok in E1. rename v into kk, v0 into ep.
    assert (Hit : kj = ki -> py_is (l_name ep) t = true).
    { intros ->. destruct (D _ _ K) as (k1 & K1 & E2 & _). assert (k1 = kk) as -> by congruence. rewrite E2 in E1. unfold to_object in T.
      pose proof (nth_error_map l_name (k_endpoint k) (e_locations e2)) as Q1. rewrite E1, C, nth_error_map in Q1. cbn in Q1.
      destruct (nth_error (e_locations e) (k_endpoint k)) as [ep0|]; [|discriminate]. cbn in Q1. injection Q1 as Q1. now rewrite <- Q1. }
    rstep Hs; [injection Hs as <- <- _|rstep Hs; injection Hs as <- <- _].
    - split; [|auto]. intros z Hz. apply in_app_or in Hz as [Hz|[<-|[]]]; [auto|]. split; [assumption|].
      intros Eq. rewrite (Hit Eq) in *. discriminate.
    - split; [assumption|]. cbn. rewrite upd_length. split; [assumption|]. split; [now rewrite map_upd|]. split; [|split].
      + intros kq q Kq. destruct (D _ _ Kq) as (k1 & K1 & Q1 & Q2). rewrite nth_error_app1 by (rewrite upd_length; now apply nth_error_lt in K1).
        rewrite nth_upd. destruct (Nat.eqb_spec kj kq) as [->|]; rewrite K1; cbn; eauto.
      + rewrite app_length, upd_length. lia.
      + intros j lj Hj. rewrite nth_upd in Hj. destruct (nth_error (e_locations e2) j) as [lx|] eqn:Ex; [|destruct (_ =? _)%nat; discriminate].
        destruct (F j lx Ex) as (l0 & H0 & Q1 & Q2).
        destruct (_ =? _)%nat; injection Hj as <-; exists l0; (split; [assumption|]); (split; [assumption|]); [|assumption].
        intros z Hz. cbn in Hz. apply in_app_or in Hz as [Hz|[<-|[]]]; [auto|right; lia].
    - auto 10. }
  destruct Y as (A & B & C & D & Le & F). intros (lj & Hlj & Hk). apply In_nth_error in Hlj as [j Hj].
  cbn [up_loc up_e_locations e_locations] in Hj. rewrite nth_upd in Hj.
  destruct (nth_error (e_locations e1) j) as [lx|] eqn:Ex; [|destruct (_ =? _)%nat; discriminate].
  destruct (F j lx Ex) as (l0 & H0 & Q1 & Q2).
  assert (St : forall q lq, nth_error (e_locations e) q = Some lq -> In ki (l_closed_links lq) -> False).
  { intros q lq Hq Hc. destruct (st_loc _ (i_struct _ I) _ _ Hq) as (_ & _ & _ & _ & S1). destruct (S1 _ Hc) as (k1 & K1 & _ & C1).
    destruct (st_loc _ (i_struct _ I) _ _ Hl) as (_ & _ & _ & S2 & _). destruct (S2 _ Hin) as (k2 & K2 & _ & C2). congruence. }
  assert (Cl : In ki (l_closed_links lx) -> False).
  { intro Hc. destruct (Q2 _ Hc) as [Hc'|Hc']; [eapply St; eauto|]. apply nth_error_lt in K. lia. }
  destruct (Nat.eqb_spec i j) as [<-|Nj]; injection Hj as <-.
  - cbn in Hk. destruct Hk as [Hk|Hk]; [destruct (A _ Hk); congruence|auto].
  - destruct Hk as [Hk|Hk]; [|auto]. rewrite Q1 in Hk.
    destruct (st_loc _ (i_struct _ I) _ _ H0) as (_ & _ & _ & S1 & _). destruct (S1 _ Hk) as (k1 & K1 & P1 & _).
    destruct (st_loc _ (i_struct _ I) _ _ Hl) as (_ & _ & _ & S2 & _). destruct (S2 _ Hin) as (k2 & K2 & P2 & _). congruence.
Qed.
