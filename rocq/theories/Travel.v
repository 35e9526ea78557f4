(** * Travel: Person.evolve and Person.finish_travel refine the days of [SpecTravel] *)

From Coq Require Import Lia Lqa.
From Verif Require Import Base State Moving Crawling Scoring Diagnostics Flee DataTable
  Spawning InputGeography Api SpecAgents SpecRoutes SpecTravel Lemmas Inv InvMoves InvStruct Frames ScoreFrames.
Local Open Scope Q_scope.

(** ** Frames *)

(** The parts of locations and links that moving agents leave alone *)
Definition lfix (l : location) : location :=
  up_l_numAgents (fun _ => 0%Z) (up_l_numAgentsOnRank (fun _ => 0%Z)
    (up_l_incoming_journey_lengths (fun _ => []) l)).
Definition kfix (k : link) : link :=
  up_k_numAgents (fun _ => 0%Z) (up_k_cumNumAgents (fun _ => 0%Z)
    (up_k_numAgentsOnRank (fun _ => 0%Z) (up_k_cumByAttribute (fun _ => []) k))).

(** Only agent [ai], head counts and arrival buffers change. *)
Record Mv (ai : nat) (e e' : eco) : Prop := {
  mv_eco : e' = up_e_locations (fun _ => e_locations e') (up_e_links (fun _ => e_links e')
                  (up_e_agents (fun _ => e_agents e') e));
  mv_locs : map lfix (e_locations e') = map lfix (e_locations e);
  mv_links : map kfix (e_links e') = map kfix (e_links e);
  mv_len : List.length (e_agents e') = List.length (e_agents e);
  mv_others : forall aj, aj <> ai -> nth_error (e_agents e') aj = nth_error (e_agents e) aj }.

Lemma mv_refl ai e : Mv ai e e.
Proof. split; auto. now destruct e. Qed.
Lemma mv_trans ai a b c : Mv ai a b -> Mv ai b c -> Mv ai a c.
Proof.
  intros [A1 A2 A3 A4 A5] [B1 B2 B3 B4 B5]; split; try congruence.
  - rewrite B1, A1. now destruct a.
  - intros aj H. rewrite B5, A5; auto.
Qed.
#[export] Hint Resolve mv_refl : core.

Lemma mv_up_agent ai f e : Mv ai e (up_agent ai f e).
Proof.
  split; cbn; auto; [apply upd_length|]. intros aj H. apply nth_upd_other. congruence.
Qed.
Lemma mv_up_loc ai i f e : (forall l, lfix (f l) = lfix l) -> Mv ai e (up_loc i f e).
Proof. intro H; split; cbn; auto; now apply map_upd. Qed.
Lemma mv_up_link ai k f e : (forall x, nth_error (e_links e) k = Some x -> kfix (f x) = kfix x) -> Mv ai e (up_link k f e).
Proof.
  intro H; split; cbn; auto.
  destruct (nth_error (e_links e) k) as [x|] eqn:E; [|now rewrite upd_none].
  rewrite (upd_ext k f (fun _ => f x)) by (intros; congruence).
  rewrite (map_upd_at kfix k (f x) (fun y => y) _ x); [apply upd_id|assumption|now rewrite H].
Qed.

Lemma mv_dec ai p e e' : dec_at p e = Ok e' -> Mv ai e e'.
Proof.
  unfold dec_at; intro H; destruct p; rinv H; try discriminate.
  - apply mv_up_loc. intro l. unfold loc_add. destruct (e_par e); reflexivity.
  - apply mv_up_link. intros x _. unfold link_dec. destruct (e_par e); reflexivity.
Qed.
Lemma mv_inc ai S at_ p e e' : inc_at S at_ p e = Ok e' -> Mv ai e e'.
Proof.
  unfold inc_at; intro H; destruct p; rinv H; try discriminate.
  - apply mv_up_loc. intro l. unfold loc_add. destruct (e_par e); reflexivity.
  - apply mv_up_link. intros x Hx. apply of_option_ok in E. assert (x = v) as -> by congruence.
    unfold link_inc in E0. cbv zeta in E0. destruct (e_par e), (1 <? s_log_link S)%Z; rinv E0; reflexivity.
Qed.

Lemma mv_handle_travel ai S p tr e e' : handle_travel S ai p tr e = Ok e' ->
  Mv ai e e' /\ e_agents e' = upd ai (relocate p tr) (e_agents e).
Proof.
  intro H. split; [|now apply handle_travel_spec in H as (a & _ & _ & H & _)].
  unfold handle_travel in H. rstep H. rstep H. cbv zeta in H. rstep H. rinv H.
  eapply mv_trans; [eapply mv_dec; eassumption|]. eapply mv_trans; [apply mv_up_agent|].
  eapply mv_trans; [eapply mv_inc; eassumption|]. apply mv_up_agent.
Qed.

(** ** Invariance of the specification *)

(** Same network: links of locations, and ends, closure, length and attributes of links *)
Record Net (e e' : eco) : Prop := {
  n_links : map l_links (e_locations e') = map l_links (e_locations e);
  n_closed : map l_closed_links (e_locations e') = map l_closed_links (e_locations e);
  n_ends : map kstruct (e_links e') = map kstruct (e_links e);
  n_dist : map k_distance (e_links e') = map k_distance (e_links e);
  n_dicts : e_dicts e' = e_dicts e }.

Lemma net_refl e : Net e e. Proof. split; auto. Qed.
Lemma net_sym e e' : Net e e' -> Net e' e. Proof. intros []; split; congruence. Qed.
Lemma net_trans a b c : Net a b -> Net b c -> Net a c. Proof. intros [] []; split; congruence. Qed.
#[export] Hint Resolve net_refl : core.

Lemma map_via {A B C} (f : A -> B) (h : B -> C) (l l' : list A) :
  map f l' = map f l -> map (fun a => h (f a)) l' = map (fun a => h (f a)) l.
Proof. intro H. rewrite <- !(map_map f h), H. reflexivity. Qed.

Lemma net_mv ai e e' : Mv ai e e' -> Net e e'.
Proof.
  intros [A1 A2 A3 _ _]; split.
  - exact (map_via lfix l_links _ _ A2).
  - exact (map_via lfix l_closed_links _ _ A2).
  - exact (map_via kfix kstruct _ _ A3).
  - exact (map_via kfix k_distance _ _ A3).
  - now rewrite A1.
Qed.

Lemma net_link e e' ki k : Net e e' -> nth_error (e_links e) ki = Some k ->
  exists k', nth_error (e_links e') ki = Some k' /\ kstruct k' = kstruct k /\ k_distance k' = k_distance k.
Proof.
  intros [_ _ E D _] H.
  destruct (map_eq_nth kstruct kstruct (e_links e') _ ki k E H) as (k' & K & F).
  destruct (map_eq_nth k_distance k_distance (e_links e') _ ki k D H) as (k2 & K2 & F2).
  assert (k2 = k') as -> by congruence. eauto.
Qed.

Lemma net_open e e' i ki k : Net e e' -> open_link e i ki k ->
  exists k', open_link e' i ki k' /\ kstruct k' = kstruct k /\ k_distance k' = k_distance k.
Proof.
  intros N (l & Hl & I & Hk). destruct (net_link e e' ki k N Hk) as (k' & K & F).
  destruct (map_eq_nth l_links l_links (e_locations e') _ i l (n_links _ _ N) Hl) as (l' & Hl' & E).
  exists k'. split; [|assumption]. exists l'. rewrite E. auto.
Qed.

Lemma speed_net S e e' n k k' s : Net e e' -> kstruct k' = kstruct k ->
  speed_today S e n k s -> speed_today S e' n k' s.
Proof.
  intros N E (d & v & wp & H & R). exists d, v, wp. injection E as _ _ _ ->. rewrite (n_dicts _ _ N). auto.
Qed.

Lemma day_net S e e' m n p x m' n' p' x' : Net e e' ->
  day S e m n p x m' n' p' x' -> day S e' m n p x m' n' p' x'.
Proof.
  intros N H; induction H as [m n i x | m n ki k x s K Sp L | m n ki k x s m1 K Sp L C M
    | m n ki k x s m1 K Sp L C M F | m n ki k x s m1 m' n' p' x' K Sp L C M F D IH
    | m n i ki k x m' n' p' x' O D IH].
  1: constructor.
  5: { destruct (net_open _ _ _ _ _ N O) as (k' & O' & _). eapply day_depart; eauto. }
  all: destruct (net_link _ _ _ _ N K) as (k' & K' & E & Ed); pose proof E as E0;
    injection E0 as E1 E2 E3 E4; apply (speed_net S e e' n k k' s N E) in Sp; rewrite <- Ed in *.
  - eapply day_along; eauto.
  - rewrite <- E1. eapply day_sent_back; eauto; congruence.
  - rewrite <- E2. eapply day_arrive; eauto; congruence.
  - rewrite <- E2 in IH. eapply day_go_on; eauto; congruence.
Qed.

(** ** Random streams *)

Lemma streams_choices {A} (l : list A) w g r g' : random_choices l w g = Ok (r, g') -> Streams g g'.
Proof.
  unfold random_choices. intro H. rstep H; [discriminate|]. rstep H; [discriminate|].
  destruct (rng_u g) eqn:E. rstep H. injection H as _ <-. eapply streams_u; eauto.
Qed.
Lemma streams_choose {A} (l : list A) w g r g' : chooseFromWeights w l g = Ok (r, g') -> Streams g g'.
Proof.
  unfold chooseFromWeights. destruct w; intro H; [injection H as _ <-; auto|].
  rstep H. destruct v. injection H as _ <-. eapply streams_choices; eauto.
Qed.
Lemma streams_select S o e a l t g r g' : selectRoute S o e a l t g = Ok (r, g') -> Streams g g'.
Proof.
  unfold selectRoute. intro H. rstep H.
  - rstep H. destruct v. injection H as _ <-. eapply streams_randint; eauto.
  - rstep H. destruct v. rstep H. destruct v as [[[|]|] ?]; rinv H; try discriminate; eapply streams_choose; eauto.
Qed.
Lemma streams_speed S e a k g s g' : travel_speed S e a k g = Ok (s, g') -> Streams g g'.
Proof.
  unfold travel_speed. intro H. rstep H. rstep H. cbv zeta in H. rstep H. destruct (rng_u g) eqn:E2.
  injection H as _ <-. eapply streams_u; eauto.
Qed.

(** ** Speed and one decision *)

Lemma travel_speed_spec S e a k g s g' : rng_ok g -> travel_speed S e a k g = Ok (s, g') ->
  speed_today S e (a_places_travelled a) k s.
Proof.
  intros [G _] H. unfold travel_speed, link_attrs, dict_of in H. rstep H. apply of_option_ok in E.
  rstep H. cbv zeta in H. rstep H. unfold rng_u in H. destruct (G (g_i g)) as [U0 U1].
  injection H as H _. exists v, v0, v1. repeat split; auto.
  destruct (Qltb (g_u g (g_i g)) v1) eqn:Eu; qb; [left|right]; split; try congruence; lra.
Qed.

Lemma travel_speed_agent S e a a' k g : a_places_travelled a' = a_places_travelled a ->
  travel_speed S e a' k g = travel_speed S e a k g.
Proof. unfold travel_speed. intros ->. reflexivity. Qed.

(** What [Person.evolve] does to its agent: nothing, a changed plan, or a departure *)
Definition Decided (e : eco) (a a' : agent) : Prop :=
  a' = a \/
  exists i rest, a_location a = PLoc i /\ a_travelling a = false /\
    (a' = up_a_route (fun _ => Some rest) a \/
     exists ki k, open_link e i ki k /\
       a' = relocate (PLink ki) true (up_a_route (fun _ => Some rest) a)).

Lemma person_evolve_decided S o t f ai e g e' g' a : Inv e ->
  person_evolve S o t f ai e g = Ok (e', g') -> nth_error (e_agents e) ai = Some a ->
  Mv ai e e' /\ Streams g g' /\ exists a', nth_error (e_agents e') ai = Some a' /\ Decided e a a'.
Proof.
  intros IV H Ha.
  assert (St : Streams g g').
  { unfold person_evolve in H. rstep H. rstep H; [injection H as _ <-; auto|]. rstep H; try discriminate.
    rstep H. rstep H. destruct (rng_u g) as [u g1] eqn:Eu. apply streams_u in Eu.
    rstep H; [|injection H as _ <-; assumption].
    rstep H. destruct v2 as [rt g2].
    assert (S2 : Streams g1 g2).
    { destruct (a_route v) as [[|]|]; try discriminate; [eapply streams_select; eauto|injection E2 as _ <-; auto]. }
    rstep H. destruct v2 as [dest rest]. cbv zeta in H.
    assert (g' = g2) as -> by (destruct dest; [rstep H|]; congruence).
    eapply streams_trans; eauto. }
  apply person_evolve_spec in H as [->|(a0 & i & l & rest & Ha0 & T & L & Hl & H)].
  { split; auto. split; auto. exists a. split; [assumption|now left]. }
  assert (a0 = a) as -> by congruence. clear Ha0.
  destruct H as [->|(ki & I & H)].
  - split; [apply mv_up_agent|]. split; [assumption|]. exists (up_a_route (fun _ => Some rest) a).
    split; [cbn; rewrite nth_upd_same, Ha; reflexivity|]. right. exists i, rest. auto.
  - apply mv_handle_travel in H as [M U]. split; [eapply mv_trans; [apply mv_up_agent|exact M]|].
    split; [assumption|]. rewrite U. cbn. rewrite nth_upd_same, nth_upd_same, Ha. cbn.
    eexists; split; [reflexivity|]. right. exists i, rest. repeat split; auto. right.
    destruct (st_loc _ (i_struct _ IV) i l Hl) as (_ & _ & _ & O & _).
    destruct (O ki I) as (k & K & _). exists ki, k. split; [|reflexivity]. exists l. auto.
Qed.

(** ** Person.finish_travel *)

(** The parts of an agent that moving leaves alone *)
Definition afix (a : agent) :=
  (a_home_location a, a_attributes a, a_timesteps_since_departure a, a_recent_travel_distance a).

Definition day_of (S : settings) (e : eco) (a a' : agent) : Prop :=
  day S e (a_distance_moved_this_timestep a) (a_places_travelled a) (a_location a)
    (a_distance_travelled_on_link a)
    (a_distance_moved_this_timestep a') (a_places_travelled a') (a_location a')
    (a_distance_travelled_on_link a').

Lemma day_decided S e a a1 a2 : Decided e a a1 -> day_of S e a1 a2 -> day_of S e a a2.
Proof.
  intros [->|(i & rest & L & T & [->|(ki & k & O & ->)])] D; auto.
  unfold day_of in *. cbn in D. rewrite L. eapply day_depart; eauto.
Qed.
Lemma decided_fix e a a1 : Decided e a a1 ->
  afix a1 = afix a /\ a_distance_moved_this_timestep a1 = a_distance_moved_this_timestep a /\
  (gone_of a1 = gone_of a).
Proof.
  intros [->|(i & rest & L & T & [->|(ki & k & O & ->)])]; auto.
  unfold gone_of; cbn. rewrite L. auto.
Qed.

Lemma finish_travel_day fuel S o t ai e g e' g' a : Inv e -> rng_ok g ->
  finish_travel fuel S o t ai e g = Ok (e', g') -> nth_error (e_agents e) ai = Some a ->
  gone_of a = None ->
  Mv ai e e' /\ Streams g g' /\
  exists a', nth_error (e_agents e') ai = Some a' /\ day_of S e a a' /\ afix a' = afix a.
Proof.
  revert e g a; induction fuel as [|fuel IH]; intros e g a I G H Ha NG; cbn [finish_travel] in H;
    unfold agent_of in H; rewrite Ha in H; cbn [of_option bind] in H;
    pose proof (i_agents _ I a (nth_error_In _ _ Ha)) as [_ AO]; unfold gone_of in NG;
    (destruct (a_travelling a) eqn:T; cbn [negb] in H;
      [|rinv H; split; auto; split; auto; exists a; repeat split; auto;
        unfold day_of; destruct (a_location a); [constructor|destruct AO; congruence|discriminate]]);
    [discriminate|].
  destruct (a_location a) as [|ki|] eqn:L; try discriminate.
  unfold link_of in H. rstep H. apply of_option_ok in E. rename v into k, E into K.
  rstep H. destruct v as [s g1]. cbv zeta in H.
  pose proof (travel_speed_spec _ _ _ _ _ _ _ G E) as Sp. pose proof (streams_speed _ _ _ _ _ _ _ E) as St.
  pose proof (streams_ok _ _ St G) as G1.
  match type of H with context [up_agent ai ?f e] =>
    assert (S1 : Same e (up_agent ai f e)) by (apply same_up_agent; reflexivity);
    pose proof (mv_up_agent ai f e) as M1; set (f1 := f) in * end.
  assert (H1 : nth_error (e_agents (up_agent ai f1 e)) ai = Some (f1 a)) by (cbn; rewrite nth_upd_same, Ha; reflexivity).
  set (e1 := up_agent ai f1 e) in *.
  assert (I1 : Inv e1) by (eapply inv_same; eauto).
  destruct (Qltb (k_distance k) (a_distance_travelled_on_link a + s)) eqn:Ed; qb.
  2: { rinv H. split; [assumption|]. split; [assumption|]. exists (f1 a). repeat split; auto.
       unfold day_of. rewrite L. cbn. rewrite L. eapply day_along; eauto. }
  set (m2 := a_distance_moved_this_timestep a + s + (k_distance k - (a_distance_travelled_on_link a + s))) in *.
  assert (M2E : m2 == a_distance_moved_this_timestep a + (k_distance k - a_distance_travelled_on_link a)) by (unfold m2; lra).
  match type of H with context [up_agent ai ?f e1] =>
    assert (S2 : Same e1 (up_agent ai f e1))
      by (apply same_up_agent; intro; destruct (0 <? s_log_agent S)%Z; reflexivity);
    pose proof (mv_up_agent ai f e1) as M2; set (f2 := f) in * end.
  assert (H2 : nth_error (e_agents (up_agent ai f2 e1)) ai = Some (f2 (f1 a))).
  { cbn [up_agent up_e_agents e_agents]. rewrite nth_upd_same, H1; reflexivity. }
  assert (F2 : afix (f2 (f1 a)) = afix a /\ a_distance_moved_this_timestep (f2 (f1 a)) = m2 /\
     a_places_travelled (f2 (f1 a)) = (a_places_travelled a + 1)%Z).
  { unfold f2. destruct (0 <? s_log_agent S)%Z; cbn; auto. }
  set (e2 := up_agent ai f2 e1) in *.
  assert (I2 : Inv e2) by (eapply inv_same; eauto).
  assert (M12 : Mv ai e e2) by (eapply mv_trans; eauto).
  set (b2 := f2 (f1 a)) in *. destruct F2 as (F2 & F3 & F4). clearbody b2.
  destruct (k_closed k) eqn:Ck.
  - rstep H. rinv H. apply mv_handle_travel in E0 as [M3 U3].
    split; [eapply mv_trans; eauto|]. split; [assumption|].
    exists (relocate (PLoc (k_startpoint k)) false b2). rewrite U3, nth_upd_same, H2.
    split; [reflexivity|]. split; [|exact F2]. unfold day_of. cbn. rewrite L, F3, F4.
    eapply day_sent_back; eauto.
  - match type of H with context [handle_travel S ai _ false ?x] => set (e3 := x) in * end.
    assert (X3 : Mv ai e e3 /\ Inv e3 /\ exists b3, nth_error (e_agents e3) ai = Some b3 /\
      afix b3 = afix a /\ a_distance_moved_this_timestep b3 = m2 /\
      a_places_travelled b3 = (a_places_travelled a + 1)%Z).
    { unfold e3. match goal with |- context [if ?b then _ else _] => destruct b end.
      - split; [eapply mv_trans; [exact M12|apply mv_up_agent]|]. split.
        + eapply inv_same; [|exact I2]. apply same_up_agent; reflexivity.
        + eexists. cbn [up_agent up_e_agents e_agents]. rewrite nth_upd_same, H2. split; [reflexivity|]. auto.
      - eauto 10. }
    destruct X3 as (M3 & I3 & b3 & H3 & B1 & B2 & B3). clearbody e3.
    rstep H. rename v into e4. pose proof E0 as E4. apply mv_handle_travel in E4 as [M4 U4].
    assert (I4 : Inv e4) by (eapply inv_handle_travel; [exact I3| |exact E0]; reflexivity).
    unfold loc_of in H. rstep H.
    match type of H with context [person_evolve S o t _ ai ?x g1] => set (e5 := x) in * end.
    set (b4 := relocate (PLoc (k_endpoint k)) false b3).
    assert (X5 : Mv ai e e5 /\ Inv e5 /\ nth_error (e_agents e5) ai = Some b4).
    { assert (M4' : Mv ai e e4) by (eapply mv_trans; eauto).
      assert (H4 : nth_error (e_agents e4) ai = Some b4) by (rewrite U4, nth_upd_same, H3; reflexivity).
      unfold e5. match goal with |- context [if ?b then _ else _] => destruct b end; auto. split.
      - eapply mv_trans; [exact M4'|]. apply mv_up_loc. reflexivity.
      - split; [|exact H4]. eapply inv_same; [|exact I4]. apply same_up_loc; lsimpl. }
    destruct X5 as (M5 & I5 & H5). clearbody e5.
    destruct (Qltb m2 s) eqn:Em; qb.
    + rstep H. rstep H. destruct v1 as [e6 g2].
      pose proof (inv_person_evolve _ _ _ _ _ _ _ _ _ I5 E3) as I6.
      destruct (person_evolve_decided _ _ _ _ _ _ _ _ _ _ I5 E3 H5) as (M6 & St6 & b6 & H6 & D6).
      destruct (decided_fix _ _ _ D6) as (X1 & X2 & X3).
      destruct (IH e6 g2 b6 I6 (streams_ok _ _ St6 G1) H H6) as (M7 & St7 & a' & H7 & D7 & F7).
      { rewrite X3. reflexivity. }
      split; [eapply mv_trans; [exact M5|]; eapply mv_trans; eauto|].
      split; [eapply streams_trans; [exact St|]; eapply streams_trans; eauto|].
      exists a'. split; [assumption|]. split; [|rewrite F7, X1; exact B1].
      assert (D8 : day_of S e b4 a').
      { apply (day_net S e5 e); [apply net_sym; eapply net_mv; eauto|].
        eapply day_decided; [exact D6|]. apply (day_net S e6 e5); [apply net_sym; eapply net_mv; eauto|exact D7]. }
      unfold day_of in D8 |- *. rewrite L. cbn in D8. rewrite B2, B3 in D8.
      eapply day_go_on; eauto.
    + rinv H. split; [assumption|]. split; [assumption|]. exists b4. split; [assumption|].
      split; [|exact B1]. unfold day_of. cbn. rewrite L, B2, B3. eapply day_arrive; eauto.
Qed.

(** ** One step of the ecosystem *)

Lemma net_sc e e' : Sc e e' -> Net e e'.
Proof.
  intros [A B]; split; try now rewrite A.
  - exact (map_via lsc l_links _ _ B).
  - exact (map_via lsc l_closed_links _ _ B).
Qed.

(** Folding over all agents, each step concerning one agent *)
Lemma fold_agents (e0 : eco) (g0 : rng) (f : eco * rng -> nat -> res (eco * rng)) (R : agent -> agent -> Prop) :
  (forall ai e g e' g' a, Inv e -> Net e0 e -> Streams g0 g -> nth_error (e_agents e) ai = Some a ->
     f (e, g) ai = Ok (e', g') ->
     Inv e' /\ Mv ai e e' /\ Streams g g' /\
     exists a', nth_error (e_agents e') ai = Some a' /\ R a a') ->
  forall n k e g e' g', Inv e -> Net e0 e -> Streams g0 g -> List.length (e_agents e) = (k + n)%nat ->
  foldM f (seq k n) (e, g) = Ok (e', g') ->
  Inv e' /\ Net e0 e' /\ Streams g0 g' /\
  (forall ai, (ai < k)%nat -> nth_error (e_agents e') ai = nth_error (e_agents e) ai) /\
  forall ai a, (k <= ai)%nat -> nth_error (e_agents e) ai = Some a ->
    exists a', nth_error (e_agents e') ai = Some a' /\ R a a'.
Proof.
  intros Hf n; induction n as [|n IH]; intros k e g e' g' I N St L H; cbn [seq foldM] in H.
  - rinv H. do 4 (split; [solve [auto]|]). intros ai a Hk Ha. apply nth_error_lt in Ha. lia.
  - rstep H. destruct v as [e1 g1].
    destruct (nth_error_ex (e_agents e) k) as [a Ha]; [lia|].
    destruct (Hf _ _ _ _ _ _ I N St Ha E) as (I1 & M1 & St1 & a1 & Ha1 & R1).
    assert (N1 : Net e0 e1) by (eapply net_trans; [exact N|eapply net_mv; eauto]).
    destruct (IH (Datatypes.S k) e1 g1 e' g' I1 N1 (streams_trans _ _ _ St St1)) as (I2 & N2 & St2 & Lo & Hi); auto.
    { rewrite (mv_len _ _ _ M1). lia. }
    do 3 (split; [assumption|]). split.
    + intros ai Hai. rewrite Lo by lia. apply (mv_others _ _ _ M1). lia.
    + intros ai b Hai Hb. destruct (Nat.eq_dec ai k) as [->|Ne].
      * assert (b = a) as -> by congruence. exists a1. rewrite Lo by lia. auto.
      * rewrite <- (mv_others _ _ _ M1 ai Ne) in Hb. apply Hi; [lia|assumption].
Qed.

Lemma decided_net e e' a a' : Net e e' -> Decided e a a' -> Decided e' a a'.
Proof.
  intros N [->|(i & rest & L & T & [->|(ki & k & O & ->)])]; [now left|right..].
  - exists i, rest; auto.
  - destruct (net_open _ _ _ _ _ N O) as (k' & O' & _). exists i, rest. eauto 8.
Qed.

(** The part of an agent that survives the reset of the visited locations *)
Definition unvisited (a : agent) : agent := up_a_locations_visited (fun _ => []) a.

Definition R_evolve (S : settings) (e0 : eco) (a a' : agent) : Prop :=
  gone_of a' = gone_of a /\ (gone_of a = None -> exists b, unvisited b = unvisited a /\ Decided e0 b a') /\
  (gone_of a <> None -> unvisited a' = unvisited a).

Lemma evolve_agents_decided S o e g e' g' : Inv e -> evolve_agents S o e g = Ok (e', g') ->
  Inv e' /\ Net e e' /\ Streams g g' /\
  forall ai a, nth_error (e_agents e) ai = Some a ->
    exists a', nth_error (e_agents e') ai = Some a' /\ R_evolve S e a a'.
Proof.
  intros I H. unfold evolve_agents in H.
  eapply (fold_agents e g _ (R_evolve S e)) in H; auto.
  { destruct H as (A & B & C & _ & D). do 3 (split; [assumption|]).
    intros ai a Ha. apply D; [lia|assumption]. }
  clear. intros ai e1 g1 e' g' a I N _ Ha H. cbv beta iota zeta in H.
  set (e2 := if (1 <? s_log_agent S)%Z then _ else e1) in *.
  assert (X : Inv e2 /\ Mv ai e1 e2 /\ exists b, nth_error (e_agents e2) ai = Some b /\
             unvisited b = unvisited a /\ gone_of b = gone_of a /\ a_location b = a_location a).
  { unfold e2. destruct (1 <? s_log_agent S)%Z.
    - split; [eapply inv_same; [|exact I]; apply same_up_agent; reflexivity|]. split; [apply mv_up_agent|].
      eexists. cbn [up_agent up_e_agents e_agents]. rewrite nth_upd_same, Ha. split; [reflexivity|]. auto.
    - eauto 8. }
  destruct X as (I2 & M2 & b & Hb & U & G & L). clearbody e2.
  unfold agent_of in H. rewrite Hb in H. cbn [of_option bind] in H.
  assert (Z : (e', g') = (e2, g1) \/ (gone_of b = None /\ person_evolve S o (e_time e2) false ai e2 g1 = Ok (e', g'))).
  { unfold gone_of. destruct (a_location b); auto. left. injection H as <- <-. reflexivity. }
  destruct Z as [Z|[Gn Z]].
  - injection Z as -> ->. do 3 (split; [solve [auto]|]). exists b. split; [assumption|]. split; [assumption|].
    split; [|intros _; exact U]. intros _. exists b. split; auto. now left.
  - destruct (person_evolve_decided _ _ _ _ _ _ _ _ _ _ I2 Z Hb) as (M3 & St & a' & Ha' & D).
    split; [eapply inv_person_evolve; eauto|]. split; [eapply mv_trans; eauto|]. split; [assumption|].
    exists a'. split; [assumption|]. destruct (decided_fix _ _ _ D) as (_ & _ & G'). split; [congruence|].
    split; [|congruence]. intros _. exists b. split; [assumption|]. eapply decided_net; [|exact D].
    apply net_sym. eapply net_trans; [exact N|]. eapply net_mv; eauto.
Qed.

Definition R_finish (S : settings) (e0 : eco) (a a' : agent) : Prop :=
  match a_location a with
  | PGone _ => a' = a
  | _ => exists b, a' = up_a_timesteps_since_departure (fun z => z + 1)%Z b /\ day_of S e0 a b /\ afix b = afix a
  end.

Lemma finish_agents_day fuel S o e g e' g' : Inv e -> rng_ok g -> finish_agents fuel S o e g = Ok (e', g') ->
  Inv e' /\ Net e e' /\ Streams g g' /\
  forall ai a, nth_error (e_agents e) ai = Some a ->
    exists a', nth_error (e_agents e') ai = Some a' /\ R_finish S e a a'.
Proof.
  intros I G H. unfold finish_agents in H.
  eapply (fold_agents e g _ (R_finish S e)) in H; auto.
  { destruct H as (A & B & C & _ & D). do 3 (split; [assumption|]).
    intros ai a Ha. apply D; [lia|assumption]. }
  revert G. clear. intros G ai e1 g1 e' g' a I N St Ha H. cbv beta iota zeta in H.
  unfold agent_of in H. rewrite Ha in H. cbn [of_option bind] in H.
  assert (Z : ((e', g') = (e1, g1) /\ R_finish S e a a) \/ (gone_of a = None /\ exists e2,
    finish_travel fuel S o (e_time e1) ai e1 g1 = Ok (e2, g') /\
    e' = up_agent ai (up_a_timesteps_since_departure (fun z => z + 1)%Z) e2 )).
  { unfold gone_of, R_finish. destruct (a_location a);
      [right; split; auto; rstep H; destruct v; rinv H; eauto.. | left; split; auto; injection H as <- <-; reflexivity]. }
  destruct Z as [[Z R]|(Gn & e2 & Z & ->)].
  - injection Z as -> ->. do 3 (split; [solve [auto]|]). eauto.
  - destruct (finish_travel_day _ _ _ _ _ _ _ _ _ _ I (streams_ok _ _ St G) Z Ha Gn) as (M & St2 & b & Hb & D & F).
    split; [eapply inv_same; [apply same_up_agent; reflexivity|]; eapply inv_finish_travel; eauto|].
    split; [eapply mv_trans; [exact M|apply mv_up_agent]|]. split; [assumption|].
    eexists. cbn [up_agent up_e_agents e_agents]. rewrite nth_upd_same, Hb. split; [reflexivity|].
    assert (D' : day_of S e a b) by (eapply day_net; [apply net_sym; exact N|exact D]).
    unfold R_finish. unfold gone_of in Gn. destruct (a_location a); [eauto..|discriminate].
Qed.

Lemma deactivate_frame S e g e' g' : deactivate S e g = Ok (e', g') ->
  e_dicts e' = e_dicts e /\ Streams g g'.
Proof.
  unfold deactivate; intro H. rstep H; [|rinv H; auto].
  eapply (foldM_rel (fun s s' => e_dicts (fst s') = e_dicts (fst s) /\ Streams (snd s) (snd s'))) in H; auto.
  - intros [e1 g1] [e2 g2] [e3 g3] [A B1] [C D]; cbn in *; split; [congruence | eapply streams_trans; eauto].
  - intros [e1 g1] ai [e2 g2] _ Hs. cbn [fst snd]. rstep Hs. rstep Hs; [rinv Hs; auto|].
    rstep Hs; try discriminate; [|rinv Hs; auto]. rstep Hs. rstep Hs; [|rinv Hs; auto].
    destruct (rng_u g1) eqn:Eu. apply streams_u in Eu. do 2 rstep Hs. rstep Hs; rinv Hs; auto.
Qed.

(** What [Ecosystem.evolve] does to each agent *)
Lemma evolve_day_all fuel S o e g e' g' : Inv e -> rng_ok g -> evolve fuel S o e g = Ok (e', g') ->
  Net e e' /\ Streams g g' /\ (forall ai a, nth_error (e_agents e) ai = Some a -> gone_of a = None ->
    exists b a', nth_error (e_agents e') ai = Some a' /\ day_of S e a b /\
      (a_location a' = a_location b \/ exists i, a_location b = PLoc i /\ a_location a' = PGone i) /\
      a_places_travelled a' = a_places_travelled b /\
      a_distance_travelled_on_link a' = a_distance_travelled_on_link b /\
      a_distance_moved_this_timestep a' = 0 /\
      ~ s_MaxMoveSpeed S == 0 /\
      a_recent_travel_distance a' = (a_recent_travel_distance a + a_distance_moved_this_timestep b / s_MaxMoveSpeed S) / 2) /\
  forall ai a, nth_error (e_agents e) ai = Some a -> gone_of a <> None ->
    exists a', nth_error (e_agents e') ai = Some a' /\ a_location a' = a_location a /\
      a_places_travelled a' = a_places_travelled a /\
      a_recent_travel_distance a' = (a_recent_travel_distance a + a_distance_moved_this_timestep a / s_MaxMoveSpeed S) / 2.
Proof.
  intros I G H. unfold evolve in H. rstep H. rename v into e0.
  assert (N0 : Net e e0) by (unfold refresh_spawn_weights in E; rinv E; split; reflexivity).
  assert (A0 : e_agents e0 = e_agents e) by (unfold refresh_spawn_weights in E; rinv E; reflexivity).
  assert (I0 : Inv e0) by (eapply inv_same; [eapply sl_same, still_refresh; eauto|assumption]).
  rstep H. destruct v as [e1 g1].
  pose proof (sl_same _ _ (still_update_scores _ _ _ _ _ _ E0)) as Sm1.
  pose proof (sl_agents _ _ (still_update_scores _ _ _ _ _ _ E0)) as A1.
  assert (I1 : Inv e1) by (eapply inv_same; eauto).
  apply sc_update_scores in E0 as [N1 St1]. apply net_sc in N1.
  rstep H. destruct v as [e2 g2].
  destruct (evolve_agents_decided _ _ _ _ _ _ I1 E0) as (I2 & N2 & St2 & D2).
  rstep H. destruct v as [e3 g3].
  pose proof (streams_ok _ _ (streams_trans _ _ _ St1 St2) G) as G2.
  destruct (finish_agents_day _ _ _ _ _ _ _ I2 G2 E1) as (I3 & N3 & St3 & D3).
  rstep H. rename v into e4. rstep H. rename v into e5.
  assert (N5 : Net e3 e5).
  { eapply net_trans with e4; [unfold write_agents in E2 | unfold write_links in E3];
      [rinv E2|rinv E3]; split; reflexivity. }
  assert (A5 : e_agents e5 = e_agents e3).
  { transitivity (e_agents e4); [unfold write_links in E3; rinv E3 | unfold write_agents in E2; rinv E2]; reflexivity. }
  rstep H. rename v into e6. unfold update_recent in E4. rstep E4. rename v into ag. rinv E4.
  rstep H. destruct v as [e8 g4]. rinv H.
  pose proof (deactivate_spec _ _ _ _ _ E4) as (_ & L8 & K8 & _ & _ & _ & D8).
  apply deactivate_frame in E4 as [Di8 St8].
  set (e7 := aggregate_arrivals S _) in *.
  assert (N7 : Net e5 e7 /\ e_agents e7 = ag).
  { unfold e7, aggregate_arrivals. destruct (0 <? s_log_camp S)%Z; split; try reflexivity;
    split; try reflexivity; cbn; rewrite map_map; apply map_ext; intro l; destruct (l_camp l); reflexivity. }
  destruct N7 as [N7 A7]. clearbody e7.
  assert (NT : Net e e1) by (eapply net_trans; eauto).
  split.
  { eapply net_trans; [exact NT|]. eapply net_trans; [exact N2|]. eapply net_trans; [exact N3|].
    eapply net_trans; [exact N5|]. eapply net_trans; [exact N7|]. split; cbn; congruence. }
  split.
  { eapply streams_trans; [exact St1|]. eapply streams_trans; [exact St2|]. eapply streams_trans; [exact St3|exact St8]. }
  split; cycle 1.
  { intros ai a Ha NG. rewrite <- A0, <- A1 in Ha.
    destruct (D2 ai a Ha) as (a2 & Ha2 & G2' & _ & U). specialize (U NG).
    destruct (D3 ai a2 Ha2) as (a3 & Ha3 & R3).
    assert (a3 = a2) as ->.
    { unfold R_finish in R3. rewrite <- G2' in NG. unfold gone_of in NG. destruct (a_location a2); auto; congruence. }
    rewrite <- A5 in Ha3.
    destruct (mapM_nth _ _ _ _ _ E5 Ha3) as (a6 & Ha6 & H6).
    rstep H6. unfold fdiv in E4. rstep E4; [discriminate|]. rinv E4. rinv H6.
    destruct (D8 ai _ Ha6) as (a' & Ha' & Da'). exists a'. split; [exact Ha'|].
    unfold unvisited in U. destruct a, a2. cbn in *. injection U as <- <- <- <- <- <- <- <- <- <- <-.
    destruct Da' as [->|(i & l & -> & La & _)]; cbn in *; auto.
    exfalso. apply NG. cbn. unfold gone_of. cbn. rewrite La. reflexivity. }
  intros ai a Ha NG. rewrite <- A0, <- A1 in Ha.
  destruct (D2 ai a Ha) as (a2 & Ha2 & G2' & [b [U Db]] & _); [assumption|].
  destruct (D3 ai a2 Ha2) as (a3 & Ha3 & R3).
  assert (R3' : exists c, a3 = up_a_timesteps_since_departure (fun z => z + 1)%Z c /\ day_of S e2 a2 c /\ afix c = afix a2).
  { unfold R_finish in R3. rewrite NG in G2'. unfold gone_of in G2'. destruct (a_location a2); auto; discriminate. }
  destruct R3' as (c & -> & Dc & Fc).
  assert (DD : day_of S e a c).
  { apply (day_net S e1 e); [now apply net_sym|].
    assert (day_of S e1 b c) as Dbc.
    { eapply day_decided; [exact Db|]. apply (day_net S e2 e1); [now apply net_sym|exact Dc]. }
    unfold day_of in *. unfold unvisited in U. destruct a, b. cbn in *. injection U as <- <- <- <- <- <- <- <- <- <- <-. exact Dbc. }
  rewrite <- A5 in Ha3.
  destruct (mapM_nth _ _ _ _ _ E5 Ha3) as (a6 & Ha6 & H6).
  rstep H6. unfold fdiv in E4. rstep E4; [discriminate|]. rinv E4. rinv H6.
  destruct (D8 ai _ Ha6) as (a' & Ha' & Da').
  exists c, a'. split; [exact Ha'|]. split; [exact DD|].
  assert (Rc : a_recent_travel_distance c = a_recent_travel_distance a).
  { destruct (decided_fix _ _ _ Db) as (F1 & _ & _).
    transitivity (a_recent_travel_distance a2); [now injection Fc|].
    transitivity (a_recent_travel_distance b); [now injection F1|].
    unfold unvisited in U. destruct a, b. cbn in *. now injection U. }
  assert (NZ : ~ s_MaxMoveSpeed S == 0).
  { qb. assumption. }
  destruct Da' as [->|(i & l & -> & La & _)]; cbn in *; rewrite Rc; repeat split; eauto.
Qed.

Lemma evolve_day fuel S o e g e' g' : Inv e -> rng_ok g -> evolve fuel S o e g = Ok (e', g') ->
  Net e e' /\ Streams g g' /\
  forall ai a, nth_error (e_agents e) ai = Some a -> gone_of a = None ->
    exists b a', nth_error (e_agents e') ai = Some a' /\ day_of S e a b /\
      (a_location a' = a_location b \/ exists i, a_location b = PLoc i /\ a_location a' = PGone i) /\
      a_places_travelled a' = a_places_travelled b /\
      a_distance_travelled_on_link a' = a_distance_travelled_on_link b /\
      a_distance_moved_this_timestep a' = 0 /\
      ~ s_MaxMoveSpeed S == 0 /\
      a_recent_travel_distance a' = (a_recent_travel_distance a + a_distance_moved_this_timestep b / s_MaxMoveSpeed S) / 2.
Proof. intros I G H. destruct (evolve_day_all _ _ _ _ _ _ _ I G H) as (A & B & C & _). auto. Qed.
