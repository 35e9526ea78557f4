(** * TravelProps: proofs of the travel properties *)

From Coq Require Import Lia Lqa Qround.
From Verif Require Import Base State Moving Crawling Scoring Diagnostics Flee DataTable
  Spawning InputGeography Api SpecAgents SpecHistory SpecRoutes SpecTravel Lemmas Inv InvMoves InvStruct
  ScoreFrames RouteProofs Traffic Frames Travel Streams Terminate TravelRun Terminate2.
Local Open Scope Q_scope.

(** ** C07: moves follow open links *)

Lemma day_near S e m n p x m' n' p' x' : Inv e -> day S e m n p x m' n' p' x' ->
  match p with
  | PLoc i => ends_near e i p'
  | PLink ki => (p' = PLink ki /\ n' = n) \/
      exists k, nth_error (e_links e) ki = Some k /\
        if k_closed k then p' = PLoc (k_startpoint k) else ends_near e (k_endpoint k) p'
  | PGone _ => False
  end.
Proof.
  intros I H; induction H as [m n i x | m n ki k x s K Sp L | m n ki k x s m1 K Sp L C M
    | m n ki k x s m1 K Sp L C M F | m n ki k x s m1 m' n' p' x' K Sp L C M F D IH
    | m n i ki k x m' n' p' x' O D IH].
  - apply walk_here.
  - left; auto.
  - right. exists k. rewrite C. auto.
  - right. exists k. rewrite C. split; [assumption|apply walk_here].
  - right. exists k. rewrite C. auto.
  - destruct O as (l & Hl & Hin & K).
    destruct (st_loc _ (i_struct _ I) i l Hl) as (_ & _ & _ & O & _).
    destruct (O ki Hin) as (k0 & K0 & St & Cl). assert (k0 = k) as -> by congruence.
    assert (OL : open_link e i ki k) by (exists l; auto).
    destruct IH as [[-> _]|(k1 & K1 & R)].
    + cbn. exists i, k. split; [apply walk_here|assumption].
    + assert (k1 = k) as -> by congruence. rewrite Cl in R. destruct p'; cbn in *.
      * eapply walk_on; eauto.
      * destruct R as (j & k2 & W & O2). exists j, k2. split; [|assumption]. eapply walk_on; eauto.
      * eapply walk_on; eauto.
Qed.

Lemma gone_dead a : deactivated a = false <-> gone_of a = None.
Proof. unfold deactivated, gone_of. destruct (a_location a); split; congruence. Qed.

Theorem evolve_near o fuel S e g e' g' ai a :
  reachable o e g -> rng_ok g -> evolve fuel S o e g = Ok (e', g') ->
  nth_error (e_agents e) ai = Some a -> deactivated a = false ->
  exists a', nth_error (e_agents e') ai = Some a' /\
  match a_location a with
  | PLoc i => ends_near e i (a_location a')
  | PLink ki => (a_location a' = PLink ki /\ a_places_travelled a' = a_places_travelled a) \/
      exists k, nth_error (e_links e) ki = Some k /\
        if k_closed k
        then a_location a' = PLoc (k_startpoint k) \/ a_location a' = PGone (k_startpoint k)
        else ends_near e (k_endpoint k) (a_location a')
  | PGone _ => False
  end.
Proof.
  intros R G H Ha D. apply gone_dead in D. pose proof (reachable_inv _ _ _ R) as I.
  destruct (evolve_day _ _ _ _ _ _ _ I G H) as (_ & _ & DD).
  destruct (DD ai a Ha D) as (b & a' & Ha' & Dy & L & P & _). exists a'. split; [assumption|].
  apply day_near in Dy; [|assumption]. destruct (a_location a) as [i|ki|i]; auto.
  - destruct L as [->|(j & Lb & ->)]; [assumption|]. rewrite Lb in Dy. exact Dy.
  - destruct Dy as [[Lb Pb]|(k & K & C)].
    + left. rewrite P. split; [|assumption]. destruct L as [->|(j & Lb' & _)]; congruence.
    + right. exists k. split; [assumption|]. destruct (k_closed k).
      * destruct L as [->|(j & Lb & ->)]; [now left|right]. congruence.
      * destruct L as [->|(j & Lb & ->)]; [assumption|]. rewrite Lb in C. exact C.
Qed.

(** A single decision *)
Theorem decision_open_link S o t f ai e g e' g' a a' ki : Inv e ->
  person_evolve S o t f ai e g = Ok (e', g') -> nth_error (e_agents e) ai = Some a ->
  nth_error (e_agents e') ai = Some a' -> a_location a' <> a_location a -> a_location a' = PLink ki ->
  exists i k, a_location a = PLoc i /\ open_link e i ki k /\ k_startpoint k = i.
Proof.
  intros I H Ha Ha' Ne L. destruct (person_evolve_decided _ _ _ _ _ _ _ _ _ _ I H Ha) as (_ & _ & a2 & Ha2 & D).
  assert (a2 = a') as -> by congruence. destruct D as [->|(i & rest & L0 & T & [->|(kj & k & O & ->)])]; [congruence|cbn in *; congruence|].
  cbn in *. injection L as ->. exists i, k. split; [assumption|]. split; [assumption|].
  destruct O as (l & Hl & Hin & K). destruct (st_loc _ (i_struct _ I) i l Hl) as (_ & _ & _ & O & _).
  destruct (O ki Hin) as (k0 & K0 & St & _). congruence.
Qed.

(** The whole day *)
Theorem evolve_is_day o fuel S e g e' g' ai a :
  reachable o e g -> rng_ok g -> evolve fuel S o e g = Ok (e', g') ->
  nth_error (e_agents e) ai = Some a -> deactivated a = false ->
  exists a' m p', nth_error (e_agents e') ai = Some a' /\
    day S e 0 (a_places_travelled a) (a_location a) (a_distance_travelled_on_link a)
            m (a_places_travelled a') p' (a_distance_travelled_on_link a') /\
    (a_location a' = p' \/ exists i, p' = PLoc i /\ a_location a' = PGone i).
Proof.
  intros R G H Ha D. apply gone_dead in D. pose proof (reachable_inv _ _ _ R) as I.
  pose proof (reachable_settled _ _ _ R G a (nth_error_In _ _ Ha)) as [M0 _].
  destruct (evolve_day _ _ _ _ _ _ _ I G H) as (_ & _ & DD).
  destruct (DD ai a Ha D) as (b & a' & Ha' & Dy & L & P & X & _).
  exists a', (a_distance_moved_this_timestep b), (a_location b). split; [assumption|].
  unfold day_of in Dy. rewrite M0 in Dy. rewrite P, X. split; [assumption|].
  destruct L as [->|(i & L1 & L2)]; eauto.
Qed.

(** ** C08: travel time *)

Lemma day_trips S e m n p x m' n' p' x' : day S e m n p x m' n' p' x' -> (n <= n')%Z.
Proof. induction 1; lia. Qed.

Lemma day_constant S e m n ki k x s m' n' p' x' :
  day S e m n (PLink ki) x m' n' p' x' -> nth_error (e_links e) ki = Some k ->
  (forall s', speed_today S e n k s' -> s' == s) ->
  (x + s <= k_distance k -> p' = PLink ki /\ n' = n /\ x' == x + s) /\
  (k_distance k < x + s -> (n < n')%Z).
Proof.
  intros D K C. inversion D; subst;
    match goal with K0 : nth_error (e_links e) ki = Some ?k0 |- _ => assert (k0 = k) by congruence; subst k0 end;
    match goal with Sp : speed_today _ _ _ _ _ |- _ => apply C in Sp end.
  - split; intros; [|lra]. split; [reflexivity|split; [reflexivity|lra]].
  - split; intros; [lra|lia].
  - split; intros; [lra|lia].
  - match goal with D' : day _ _ _ _ _ _ _ _ _ _ |- _ => apply day_trips in D' end. split; intros; [lra|lia].
Qed.

(** Calls that do not remove agents keep them, and never take back trips. *)
Lemma step_trips o S c e g e' g' ai a : Inv e -> rng_ok g -> step o S c e g = Ok (e', g') ->
  is_clear c = false -> nth_error (e_agents e) ai = Some a ->
  exists a', nth_error (e_agents e') ai = Some a' /\ (a_places_travelled a <= a_places_travelled a')%Z /\
    (is_evolve c = false -> a' = a).
Proof.
  intros I G H Cl Ha. destruct (is_evolve c) eqn:Ev.
  - destruct c; try discriminate. cbn in H.
    destruct (evolve_day_all _ _ _ _ _ _ _ I G H) as (_ & _ & D1 & D2).
    destruct (gone_of a) eqn:Ga.
    + destruct (D2 ai a Ha) as (a' & Ha' & _ & P & _); [congruence|]. exists a'. split; [assumption|]. split; [lia|discriminate].
    + destruct (D1 ai a Ha Ga) as (b & a' & Ha' & Dy & _ & P & _). exists a'. split; [assumption|].
      apply day_trips in Dy. split; [lia|discriminate].
  - destruct (step_quiet _ _ _ _ _ _ _ Ev Cl H) as [_ _ (new & A & _)].
    exists a. rewrite A, nth_error_app1 by (eapply nth_error_lt; eauto). split; [assumption|split; [lia|auto]].
Qed.

Lemma run_cons o c h e g e' g' : run o (c :: h) e g = Ok (e', g') ->
  exists e1 g1, step o (fst c) (snd c) e g = Ok (e1, g1) /\ run o h e1 g1 = Ok (e', g').
Proof. unfold run; cbn [foldM]; intro H. rstep H. destruct v as [e1 g1]. exists e1, g1. auto. Qed.

Lemma run_trips o h : forall e g e' g' ai a, Inv e -> rng_ok g -> run o h e g = Ok (e', g') ->
  no_clear h -> nth_error (e_agents e) ai = Some a ->
  exists a', nth_error (e_agents e') ai = Some a' /\ (a_places_travelled a <= a_places_travelled a')%Z.
Proof.
  induction h as [|c h IH]; intros e g e' g' ai a I G H NC Ha.
  - unfold run in H; cbn in H. rinv H. exists a; split; [assumption|lia].
  - apply run_cons in H as (e1 & g1 & H1 & H). inversion NC as [|? ? NC1 NC2]; subst.
    destruct (step_trips _ _ _ _ _ _ _ _ _ I G H1 NC1 Ha) as (a1 & Ha1 & P1 & _).
    destruct (IH e1 g1 e' g' ai a1) as (a' & Ha' & P); auto.
    + eapply step_inv; eauto.
    + eapply streams_ok; [eapply step_streams; eauto|assumption].
    + exists a'. split; [assumption|lia].
Qed.

Lemma days_cons c h : days (c :: h) = ((if is_evolve (snd c) then 1 else 0) + days h)%nat.
Proof. unfold days; cbn. destruct (is_evolve (snd c)); reflexivity. Qed.

Lemma inject_S (n : nat) : inject_Z (Z.of_nat (1 + n)) == 1 + inject_Z (Z.of_nat n).
Proof. rewrite Nat2Z.inj_add, inject_Z_plus. reflexivity. Qed.

Lemma run_travel_time o h : forall e g e' g' ai a ki k s, Inv e -> rng_ok g -> run o h e g = Ok (e', g') ->
  no_clear h -> nth_error (e_agents e) ai = Some a -> a_location a = PLink ki ->
  nth_error (e_links e) ki = Some k -> 0 < s ->
  during (steady (a_places_travelled a) ki s) o h e g ->
  exists a', nth_error (e_agents e') ai = Some a' /\
    let covered := a_distance_travelled_on_link a + inject_Z (Z.of_nat (days h)) * s in
    (covered <= k_distance k ->
       a_location a' = PLink ki /\ a_places_travelled a' = a_places_travelled a /\
       a_distance_travelled_on_link a' == covered) /\
    (a_distance_travelled_on_link a <= k_distance k -> k_distance k < covered ->
       (a_places_travelled a < a_places_travelled a')%Z).
Proof.
  induction h as [|c h IH]; intros e g e' g' ai a ki k s I G H NC Ha L K Hs Du.
  - unfold run in H; cbn in H. rinv H. exists a. split; [assumption|]. cbn [days List.length filter].
    change (inject_Z (Z.of_nat 0)) with 0. cbv zeta. split; intros.
    + split; [assumption|split; [reflexivity|lra]].
    + lra.
  - apply run_cons in H as (e1 & g1 & H1 & H). inversion NC as [|? ? NC1 NC2]; subst.
    cbn [during] in Du. destruct Du as [Du1 Du]. rewrite H1 in Du.
    assert (I1 : Inv e1) by (eapply step_inv; eauto).
    assert (G1 : rng_ok g1) by (eapply streams_ok; [eapply step_streams; eauto|assumption]).
    destruct (step_grow _ _ _ _ _ _ _ H1 ki k K) as (k1 & K1 & _ & _ & Ek & _).
    rewrite days_cons. destruct (is_evolve (snd c)) eqn:Ev.
    + specialize (Du1 Ev k). destruct (snd c) eqn:Ec; try discriminate. cbn in H1.
      destruct (evolve_day _ _ _ _ _ _ _ I G H1) as (_ & _ & D1).
      assert (Ga : gone_of a = None) by (unfold gone_of; now rewrite L).
      destruct (D1 ai a Ha Ga) as (b & a1 & Ha1 & Dy & Lb & Pb & Xb & _).
      unfold day_of in Dy. rewrite L in Dy.
      destruct (day_constant _ _ _ _ _ _ _ s _ _ _ _ Dy K) as [Go Ar]; [intros; eapply Du1; eauto|].
      assert (Cov : inject_Z (Z.of_nat (1 + days h)) * s == s + inject_Z (Z.of_nat (days h)) * s) by (rewrite inject_S; lra).
      cbv zeta.
      destruct (Qlt_le_dec (k_distance k) (a_distance_travelled_on_link a + s)) as [Lt|Le].
      * specialize (Ar Lt).
        destruct (run_trips _ _ _ _ _ _ _ a1 I1 G1 H NC2 Ha1) as (a' & Ha' & P'). exists a'. split; [assumption|].
        assert (0 <= inject_Z (Z.of_nat (days h)) * s).
        { apply Qmult_le_0_compat; [|lra]. change 0 with (inject_Z 0). rewrite <- Zle_Qle. lia. }
        split; intros; [exfalso; lra|]. lia.
      * destruct (Go Le) as (Lb' & Pb' & Xb').
        assert (La1 : a_location a1 = PLink ki) by (destruct Lb as [->|(j & Q1 & _)]; congruence).
        assert (Pa1 : a_places_travelled a1 = a_places_travelled a) by congruence.
        assert (Xa1 : a_distance_travelled_on_link a1 == a_distance_travelled_on_link a + s) by (rewrite Xb; exact Xb').
        destruct (IH e1 g1 e' g' ai a1 ki k1 s) as (a' & Ha' & R1 & R2); auto.
        { rewrite Pa1. exact Du. }
        exists a'. split; [assumption|]. rewrite Pa1, Ek in *. split; intros.
        -- destruct R1 as (Q1 & Q2 & Q3); [lra|]. split; [assumption|split; [assumption|lra]].
        -- apply R2; lra.
    + destruct (step_trips _ _ _ _ _ _ _ _ _ I G H1 NC1 Ha) as (a1 & Ha1 & _ & Same1).
      specialize (Same1 Ev). subst a1.
      destruct (IH e1 g1 e' g' ai a ki k1 s) as (a' & Ha' & R); auto. exists a'. split; [assumption|].
      rewrite <- Ek. cbn [Nat.add]. exact R.
Qed.

Theorem travel_time o e g h e' g' ai a ki k s :
  reachable o e g -> rng_ok g -> run o h e g = Ok (e', g') -> no_clear h ->
  nth_error (e_agents e) ai = Some a -> a_location a = PLink ki ->
  nth_error (e_links e) ki = Some k -> 0 < s ->
  during (steady (a_places_travelled a) ki s) o h e g ->
  exists a', nth_error (e_agents e') ai = Some a' /\
    let covered := a_distance_travelled_on_link a + inject_Z (Z.of_nat (days h)) * s in
    (covered <= k_distance k ->
       a_location a' = PLink ki /\ a_places_travelled a' = a_places_travelled a /\
       a_distance_travelled_on_link a' == covered) /\
    (k_distance k < covered -> (a_places_travelled a < a_places_travelled a')%Z).
Proof.
  intros R G H NC Ha L K Hs Du.
  destruct (run_travel_time _ _ _ _ _ _ _ _ _ _ _ (reachable_inv _ _ _ R) G H NC Ha L K Hs Du) as (a' & Ha' & R1 & R2).
  exists a'. split; [assumption|]. split; [assumption|]. apply R2.
  destruct (reachable_settled _ _ _ R G a (nth_error_In _ _ Ha)) as [_ S2]. eauto.
Qed.

(** The day of departure *)
Lemma day_entered S e m n i x m' n' ki x' : day S e m n (PLoc i) x m' n' (PLink ki) x' ->
  exists k s, nth_error (e_links e) ki = Some k /\ speed_today S e n' k s /\ x' == s /\ s <= k_distance k.
Proof.
  remember (PLoc i) as p eqn:Ep. remember (PLink ki) as p' eqn:Ep'. intro D.
  assert (Z : match p with
              | PLoc _ => exists k s, nth_error (e_links e) ki = Some k /\ speed_today S e n' k s /\ x' == s /\ s <= k_distance k
              | _ => x == 0 -> exists k s, nth_error (e_links e) ki = Some k /\ speed_today S e n' k s /\ x' == s /\ s <= k_distance k
              end); [|rewrite Ep in Z; exact Z].
  clear Ep. induction D; try congruence; auto.
  - injection Ep' as ->. intro X0. exists k, s. repeat split; try assumption; lra.
  - apply IHD; [assumption|reflexivity].
Qed.

Theorem departure_day o fuel S e g e' g' ai a a' i ki :
  reachable o e g -> rng_ok g -> evolve fuel S o e g = Ok (e', g') ->
  nth_error (e_agents e) ai = Some a -> a_location a = PLoc i ->
  nth_error (e_agents e') ai = Some a' -> a_location a' = PLink ki ->
  exists k s, nth_error (e_links e) ki = Some k /\
    speed_today S e (a_places_travelled a') k s /\
    a_distance_travelled_on_link a' == s /\ s <= k_distance k.
Proof.
  intros R G H Ha L Ha' L'.
  destruct (evolve_is_day _ _ _ _ _ _ _ _ _ R G H Ha) as (a2 & m & p' & Ha2 & D & Lp).
  { unfold deactivated; now rewrite L. }
  assert (a2 = a') as -> by congruence. rewrite L in D.
  assert (p' = PLink ki) as -> by (destruct Lp as [Lp|(j & _ & Lp)]; congruence).
  eapply day_entered; eauto.
Qed.

(** From the day of departure to the day of arrival *)
Theorem trip_time o fuel S e g e1 g1 h e' g' ai a a1 i ki k s :
  reachable o e g -> rng_ok g ->
  nth_error (e_agents e) ai = Some a -> a_location a = PLoc i ->
  evolve fuel S o e g = Ok (e1, g1) ->
  nth_error (e_agents e1) ai = Some a1 -> a_location a1 = PLink ki ->
  nth_error (e_links e) ki = Some k -> 0 < s ->
  run o h e1 g1 = Ok (e', g') -> no_clear h ->
  during (steady (a_places_travelled a1) ki s) o ((S, OEvolve fuel) :: h) e g ->
  exists a', nth_error (e_agents e') ai = Some a' /\
    let today := Z.of_nat (1 + days h) in
    ((today <= Qfloor (k_distance k / s))%Z ->
       a_location a' = PLink ki /\ a_places_travelled a' = a_places_travelled a1) /\
    ((Qfloor (k_distance k / s) + 1 <= today)%Z -> (a_places_travelled a1 < a_places_travelled a')%Z).
Proof.
  intros R G Ha L H1 Ha1 L1 K Hs H NC Du.
  destruct (departure_day _ _ _ _ _ _ _ _ _ _ _ _ R G H1 Ha L Ha1 L1) as (k0 & s0 & K0 & Sp & X & Le).
  assert (k0 = k) as -> by congruence.
  cbn [during fst snd step] in Du. rewrite H1 in Du. destruct Du as [Du1 Du].
  pose proof (Du1 eq_refl k s0 K Sp) as Es.
  assert (R1 : reachable o e1 g1).
  { destruct R as (h0 & g0 & Hr). exists (h0 ++ [(S, OEvolve fuel)]), g0. unfold run in *. rewrite foldM_app, Hr.
    cbn [bind foldM fst snd step]. rewrite H1. reflexivity. }
  assert (G1 : rng_ok g1) by (eapply streams_ok; [eapply (step_streams o S (OEvolve fuel)); exact H1|assumption]).
  destruct (step_grow o S (OEvolve fuel) _ _ _ _ H1 ki k K) as (k1 & K1 & _ & _ & Ek & _).
  destruct (travel_time _ _ _ _ _ _ _ _ _ _ s R1 G1 H NC Ha1 L1 K1 Hs Du) as (a' & Ha' & A & B).
  exists a'. split; [assumption|]. cbv zeta in *.
  assert (Cov : a_distance_travelled_on_link a1 + inject_Z (Z.of_nat (days h)) * s ==
                inject_Z (Z.of_nat (1 + days h)) * s) by (rewrite inject_S; lra).
  assert (Ds : k_distance k == k_distance k / s * s) by (field; lra).
  split; intro T.
  - destruct A as (A1 & A2 & _); auto. rewrite Cov, Ek, Ds. apply Qmult_le_compat_r; [|lra].
    eapply Qle_trans; [|apply Qfloor_le]. rewrite <- Zle_Qle. exact T.
  - apply B. rewrite Cov, Ek, Ds. apply Qmult_lt_r; [lra|].
    eapply Qlt_le_trans; [apply Qlt_floor|]. rewrite <- Zle_Qle. exact T.
Qed.

(** ** C10: distance covered *)

Lemma day_distance S e v m n p x m' n' p' x' : speeds_up_to v S e -> 0 <= m -> m < v ->
  day S e m n p x m' n' p' x' ->
  (forall ki k, p = PLink ki -> nth_error (e_links e) ki = Some k -> x <= k_distance k) ->
  0 <= m' /\ m' < 2 * v.
Proof.
  intros B M0 M1 D. induction D as [m n i x | m n ki k x s K Sp L | m n ki k x s m1 K Sp L C M
    | m n ki k x s m1 K Sp L C M F | m n ki k x s m1 m' n' p' x' K Sp L C M F D IH
    | m n i ki k x m' n' p' x' O D IH]; intro X; try (destruct (B ki k K) as [B0 B1]; destruct (B1 n s Sp));
    try (specialize (X ki k eq_refl K)).
  - lra.
  - lra.
  - lra.
  - lra.
  - apply IH; [lra|lra|intros; discriminate].
  - apply IH; try assumption. intros kj kk Ekj Kk. destruct (B kj kk Kk). assumption.
Qed.

Theorem evolve_distance o fuel S e g e' g' ai a v :
  reachable o e g -> rng_ok g -> evolve fuel S o e g = Ok (e', g') -> 0 < v -> speeds_up_to v S e ->
  nth_error (e_agents e) ai = Some a -> deactivated a = false ->
  exists a' m p', nth_error (e_agents e') ai = Some a' /\
    day S e 0 (a_places_travelled a) (a_location a) (a_distance_travelled_on_link a)
            m (a_places_travelled a') p' (a_distance_travelled_on_link a') /\
    0 <= m /\ m < 2 * v /\
    a_recent_travel_distance a' = (a_recent_travel_distance a + m / s_MaxMoveSpeed S) / 2.
Proof.
  intros R G H Hv B Ha D. apply gone_dead in D. pose proof (reachable_inv _ _ _ R) as I.
  pose proof (reachable_settled _ _ _ R G a (nth_error_In _ _ Ha)) as [M0 X0].
  destruct (evolve_day _ _ _ _ _ _ _ I G H) as (_ & _ & DD).
  destruct (DD ai a Ha D) as (b & a' & Ha' & Dy & L & P & X & _ & _ & Rc).
  exists a', (a_distance_moved_this_timestep b), (a_location b). split; [assumption|].
  unfold day_of in Dy. rewrite M0 in Dy. rewrite P, X. split; [assumption|].
  destruct (day_distance _ _ v _ _ _ _ _ _ _ _ B (Qle_refl 0) Hv Dy X0) as [A1 A2].
  split; [assumption|]. split; [assumption|exact Rc].
Qed.

Lemma run_recent o h : forall e g e' g', Inv e -> rng_ok g -> settled e -> run o h e g = Ok (e', g') ->
  during usual_speeds o h e g ->
  (forall a, In a (e_agents e) -> 0 <= a_recent_travel_distance a < 2) ->
  forall a, In a (e_agents e') -> 0 <= a_recent_travel_distance a < 2.
Proof.
  induction h as [|c h IH]; intros e g e' g' I G Se H Du B.
  - unfold run in H; cbn in H. injection H as <- <-. exact B.
  - apply run_cons in H as (e1 & g1 & H1 & H). cbn [during] in Du. destruct Du as [Du1 Du]. rewrite H1 in Du.
    apply (IH e1 g1 e' g'); auto.
    + eapply step_inv; eauto.
    + eapply streams_ok; [eapply step_streams; eauto|assumption].
    + eapply step_settled; eauto.
    + clear IH H Du. destruct c as [S c]. cbn [fst snd] in *. destruct (is_evolve c) eqn:Ev; [|destruct (is_clear c) eqn:Cl].
      * specialize (Du1 Ev). destruct Du1 as [Hv Bd]. destruct c; try discriminate. cbn in H1.
        destruct (evolve_day_all _ _ _ _ _ _ _ I G H1) as (_ & _ & D1 & D2).
        destruct (evolve_moved _ _ _ _ _ _ _ H1) as [Ln _].
        intros a1 Hin. apply In_nth_error in Hin as [ai Ha1].
        destruct (nth_error_ex (e_agents e) ai) as [a Ha]. { apply nth_error_lt in Ha1. lia. }
        destruct (Se a (nth_error_In _ _ Ha)) as [M0 X0]. pose proof (B a (nth_error_In _ _ Ha)) as [B1 B2].
        assert (exists m, 0 <= m /\ m < 2 * s_MaxMoveSpeed S /\
          a_recent_travel_distance a1 = (a_recent_travel_distance a + m / s_MaxMoveSpeed S) / 2) as (m & Z1 & Z2 & ->).
        { destruct (gone_of a) eqn:Ga.
          - destruct (D2 ai a Ha) as (a' & Ha' & _ & _ & Rc); [congruence|]. assert (a' = a1) as -> by congruence.
            exists 0. rewrite M0 in Rc. split; [lra|]. split; [lra|exact Rc].
          - destruct (D1 ai a Ha Ga) as (b & a' & Ha' & Dy & _ & _ & _ & _ & _ & Rc).
            assert (a' = a1) as -> by congruence. exists (a_distance_moved_this_timestep b).
            unfold day_of in Dy. rewrite M0 in Dy.
            destruct (day_distance _ _ _ _ _ _ _ _ _ _ _ Bd (Qle_refl 0) Hv Dy X0). auto. }
        assert (0 <= m / s_MaxMoveSpeed S) by (apply Qle_shift_div_l; lra).
        assert (m / s_MaxMoveSpeed S < 2) by (apply Qlt_shift_div_r; lra).
        split; [apply Qle_shift_div_l; lra|apply Qlt_shift_div_r; lra].
      * destruct c; try discriminate. cbn in H1. rstep H1. injection H1 as <- <-. apply clear_spec in E as [A _].
        intros ax Hin. rewrite A in Hin. destruct Hin.
      * destruct (step_quiet _ _ _ _ _ _ _ Ev Cl H1) as [_ _ (new & A & F)].
        intros a Hin. rewrite A in Hin. apply in_app_or in Hin as [Hin|Hin]; auto.
        rewrite Forall_forall in F. destruct (F a Hin) as (i & at_ & ->). cbn. lra.
Qed.

Theorem recent_bounded o h g0 e g : rng_ok g0 -> run o h empty_eco g0 = Ok (e, g) ->
  during usual_speeds o h empty_eco g0 ->
  forall a, In a (e_agents e) -> 0 <= a_recent_travel_distance a < 2.
Proof.
  intros G H Du. eapply run_recent; [apply inv_empty|exact G| |exact H|exact Du|]; intros a [].
Qed.
