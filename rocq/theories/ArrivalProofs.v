(** * ArrivalProofs: arrivals in camps *)

From Coq Require Import Lia Lqa Permutation.
From Verif Require Import Base State Moving Crawling Scoring Diagnostics Flee DataTable
  Spawning InputGeography Api SpecAgents SpecHistory SpecRoutes SpecTravel SpecZones SpecArrivals Lemmas Inv InvMoves InvStruct Frames
  ScoreFrames Travel Profile Zones.
Local Open Scope Q_scope.

(** ** The buffers of the camps *)

Definition pool (e : eco) : list Z := flat_map l_incoming_journey_lengths (filter l_camp (e_locations e)).
Definition lin (l : location) : bool * list Z := (l_camp l, l_incoming_journey_lengths l).

Lemma pool_lin e : pool e = flat_map snd (filter fst (map lin (e_locations e))).
Proof.
  unfold pool. induction (e_locations e) as [|l ls IH]; [reflexivity|]. cbn. destruct (l_camp l); cbn; now rewrite IH.
Qed.
Lemma pool_eq e e' : map lin (e_locations e') = map lin (e_locations e) -> pool e' = pool e.
Proof. intro H. now rewrite !pool_lin, H. Qed.

Lemma pool_push i z l e : nth_error (e_locations e) i = Some l -> l_camp l = true ->
  Permutation (pool (up_loc i (up_l_incoming_journey_lengths (fun b => b ++ [z])) e)) (pool e ++ [z]).
Proof.
  unfold pool. cbn [up_loc up_e_locations e_locations]. generalize (e_locations e) as ls. clear e.
  induction i as [|i IH]; intros [|l0 ls] H C; try discriminate.
  - injection H as ->. cbn. rewrite C. cbn. rewrite <- !app_assoc. apply Permutation_app_head, Permutation_app_comm.
  - cbn in H |- *. destruct (l_camp l0); cbn; [rewrite <- app_assoc; apply Permutation_app_head|]; now apply IH.
Qed.

(** Buffers change only in camps, and only if camps are logged. *)
Definition buffered (b : bool) (l l' : location) : Prop :=
  l_camp l' = l_camp l /\ (l_incoming_journey_lengths l' = l_incoming_journey_lengths l \/ (b && l_camp l = true)%bool).
Definition Buf (b : bool) : eco -> eco -> Prop := Each (buffered b).
Lemma buffered_trans b x y z : buffered b x y -> buffered b y z -> buffered b x z.
Proof. intros [A [B|B]] [C [D|D]]; split; try congruence; auto; [left|right..]; congruence. Qed.
Lemma buf_trans b x y z : Buf b x y -> Buf b y z -> Buf b x z.
Proof. apply each_trans, buffered_trans. Qed.
Lemma buf_lin b e e' : map lin (e_locations e') = map lin (e_locations e) -> Buf b e e'.
Proof.
  intros H i l Hl. destruct (map_eq_nth lin lin (e_locations e') _ i l H Hl) as (l' & Hl' & E).
  exists l'. split; [exact Hl'|]. injection E as E1 E2. split; auto.
Qed.

Lemma lin_up_loc i f e : (forall l, lin (f l) = lin l) -> map lin (e_locations (up_loc i f e)) = map lin (e_locations e).
Proof. intro H. cbn [up_loc up_e_locations e_locations]. now apply map_upd. Qed.
Lemma lin_dec p e e' : dec_at p e = Ok e' -> map lin (e_locations e') = map lin (e_locations e).
Proof.
  unfold dec_at; intro H; destruct p; rinv H; try discriminate; [|reflexivity].
  apply lin_up_loc. intro l. unfold loc_add. destruct (e_par e); reflexivity.
Qed.
Lemma lin_inc S at_ p e e' : inc_at S at_ p e = Ok e' -> map lin (e_locations e') = map lin (e_locations e).
Proof.
  unfold inc_at; intro H; destruct p; rinv H; try discriminate; [|reflexivity].
  apply lin_up_loc. intro l. unfold loc_add. destruct (e_par e); reflexivity.
Qed.
Lemma lin_handle S ai p tr e e' : handle_travel S ai p tr e = Ok e' -> map lin (e_locations e') = map lin (e_locations e).
Proof.
  intro H. unfold handle_travel in H. rstep H. rstep H. cbv zeta in H. rstep H. rinv H.
  apply lin_dec in E0. apply lin_inc in E1. cbn in *. congruence.
Qed.
Lemma lin_person S o t f ai e g e' g' : person_evolve S o t f ai e g = Ok (e', g') ->
  map lin (e_locations e') = map lin (e_locations e).
Proof.
  intro H. apply person_evolve_spec in H as [->|(a & i & l & rest & _ & _ & _ & _ & H)]; auto.
  destruct H as [->|(ki & _ & H)]; auto. apply lin_handle in H. exact H.
Qed.

(** ** The trips of one agent *)

Lemma camp_lin e e' i : map l_camp (e_locations e') = map l_camp (e_locations e) -> camp_at e' i = camp_at e i.
Proof.
  intro H. unfold camp_at. apply (f_equal (fun l => nth_error l i)) in H. rewrite !nth_error_map in H.
  destruct (nth_error (e_locations e') i), (nth_error (e_locations e) i); cbn in H; congruence.
Qed.
Lemma camp_mv ai e e' i : Mv ai e e' -> camp_at e' i = camp_at e i.
Proof. intros [_ B _ _ _]. apply camp_lin. exact (map_via lfix l_camp _ _ B). Qed.

Lemma tour_net e e' p ends b p' : Net e e' -> tour e p ends b p' -> tour e' p ends b p'.
Proof.
  intros N H. induction H as [p|i ki k ends b p' O _ IH|ki k K C|ki k ends b p' K C _ IH].
  - constructor.
  - destruct (net_open _ _ _ _ _ N O) as (k' & O' & _). eapply tour_leave; eauto.
  - destruct (net_link _ _ _ _ N K) as (k' & K' & F & _). injection F as F1 F2 F3 F4. rewrite <- F1. apply tour_back; [exact K'|congruence].
  - destruct (net_link _ _ _ _ N K) as (k' & K' & F & _). injection F as F1 F2 F3 F4. rewrite <- F2 in *. eapply tour_arrive; [exact K'|congruence|exact IH].
Qed.
Lemma tour_decided e a a1 ends b p' : Decided e a a1 -> tour e (a_location a1) ends b p' -> tour e (a_location a) ends b p'.
Proof.
  intros [->|(i & rest & L & T & [->|(ki & k & O & ->)])] D; auto. cbn in D. rewrite L. eapply tour_leave; eauto.
Qed.
Lemma decided_places e a a1 : Decided e a a1 ->
  a_places_travelled a1 = a_places_travelled a /\ a_timesteps_since_departure a1 = a_timesteps_since_departure a.
Proof. intros [->|(i & rest & L & T & [->|(ki & k & O & ->)])]; auto. Qed.

(** What is logged for the trips of agent [a] *)
Definition entries (S : settings) (e : eco) (a : agent) (ends : list nat) : list Z :=
  if (0 <? s_log_camp S)%Z then repeat (a_timesteps_since_departure a) (List.length (filter (camp_at e) ends)) else [].

Lemma finish_travel_tour fuel S o t ai e g e' g' a : Inv e ->
  finish_travel fuel S o t ai e g = Ok (e', g') -> nth_error (e_agents e) ai = Some a ->
  Mv ai e e' /\ Buf (0 <? s_log_camp S)%Z e e' /\ exists a' ends b, nth_error (e_agents e') ai = Some a' /\
    tour e (a_location a) ends b (a_location a') /\
    a_places_travelled a' = (a_places_travelled a + Z.of_nat (List.length ends) + Z.of_nat b)%Z /\
    a_timesteps_since_departure a' = a_timesteps_since_departure a /\
    Permutation (pool e') (pool e ++ entries S e a ends).
Proof.
  assert (Stop : forall e a, nth_error (e_agents e) ai = Some a ->
    Mv ai e e /\ Buf (0 <? s_log_camp S)%Z e e /\ exists a' ends b, nth_error (e_agents e) ai = Some a' /\
    tour e (a_location a) ends b (a_location a') /\
    a_places_travelled a' = (a_places_travelled a + Z.of_nat (List.length ends) + Z.of_nat b)%Z /\
    a_timesteps_since_departure a' = a_timesteps_since_departure a /\
    Permutation (pool e) (pool e ++ entries S e a ends)).
  { intros e0 a0 H0. split; [auto|]. split; [apply buf_lin; reflexivity|]. exists a0, [], 0%nat.
    split; [exact H0|]. split; [constructor|]. split; [cbn; lia|]. split; [reflexivity|].
    unfold entries. destruct (0 <? s_log_camp S)%Z; cbn; rewrite app_nil_r; reflexivity. }
  revert e g a; induction fuel as [|fuel IH]; intros e g a I H Ha; cbn [finish_travel] in H;
    unfold agent_of in H; rewrite Ha in H; cbn [of_option bind] in H;
    (destruct (a_travelling a) eqn:T; cbn [negb] in H; [|injection H as <- <-; now apply Stop]);
    [discriminate|].
  destruct (a_location a) as [|ki|] eqn:L; try discriminate.
  unfold link_of in H. rstep H. apply of_option_ok in E. rename v into k, E into K.
  rstep H. destruct v as [s g1]. cbv zeta in H. clear E.
  match type of H with context [up_agent ai ?f e] =>
    assert (S1 : Same e (up_agent ai f e)) by (apply same_up_agent; reflexivity);
    pose proof (mv_up_agent ai f e) as M1; set (f1 := f) in * end.
  assert (H1 : nth_error (e_agents (up_agent ai f1 e)) ai = Some (f1 a)) by (cbn; rewrite nth_upd_same, Ha; reflexivity).
  assert (P1 : map lin (e_locations (up_agent ai f1 e)) = map lin (e_locations e)) by reflexivity.
  set (e1 := up_agent ai f1 e) in *.
  assert (I1 : Inv e1) by (eapply inv_same; eauto).
  destruct (Qltb (k_distance k) (a_distance_travelled_on_link a + s)) eqn:Ed; qb.
  2: { injection H as <- <-. split; [assumption|]. split; [apply buf_lin; exact P1|]. exists (f1 a), [], 0%nat.
       split; [exact H1|]. split; [cbn; rewrite L; constructor|]. split; [cbn; lia|]. split; [reflexivity|].
       unfold entries. destruct (0 <? s_log_camp S)%Z; cbn; rewrite app_nil_r; reflexivity. }
  match type of H with context [up_agent ai ?f e1] =>
    assert (S2 : Same e1 (up_agent ai f e1))
      by (apply same_up_agent; intro; destruct (0 <? s_log_agent S)%Z; reflexivity);
    pose proof (mv_up_agent ai f e1) as M2; set (f2 := f) in * end.
  assert (H2 : nth_error (e_agents (up_agent ai f2 e1)) ai = Some (f2 (f1 a))).
  { cbn [up_agent up_e_agents e_agents]. rewrite nth_upd_same, H1; reflexivity. }
  assert (F2 : a_timesteps_since_departure (f2 (f1 a)) = a_timesteps_since_departure a /\
     a_places_travelled (f2 (f1 a)) = (a_places_travelled a + 1)%Z).
  { unfold f2. destruct (0 <? s_log_agent S)%Z; cbn; auto. }
  assert (P2 : map lin (e_locations (up_agent ai f2 e1)) = map lin (e_locations e)) by exact P1.
  set (e2 := up_agent ai f2 e1) in *.
  assert (I2 : Inv e2) by (eapply inv_same; eauto).
  assert (M12 : Mv ai e e2) by (eapply mv_trans; eauto).
  set (b2 := f2 (f1 a)) in *. destruct F2 as (F2 & F4). clearbody b2.
  destruct (k_closed k) eqn:Ck.
  - rstep H. injection H as <- <-. pose proof (lin_handle _ _ _ _ _ _ E) as P3. apply mv_handle_travel in E as [M3 U3].
    split; [eapply mv_trans; eauto|]. split; [apply buf_lin; congruence|].
    exists (relocate (PLoc (k_startpoint k)) false b2), [], 1%nat. rewrite U3, nth_upd_same, H2.
    split; [reflexivity|]. split; [cbn; eapply tour_back; eauto|]. split; [cbn; rewrite F4; lia|]. split; [exact F2|].
    rewrite (pool_eq e v) by congruence. unfold entries. destruct (0 <? s_log_camp S)%Z; cbn; rewrite app_nil_r; reflexivity.
  - match type of H with context [handle_travel S ai _ false ?x] => set (e3 := x) in * end.
    assert (X3 : Mv ai e e3 /\ Inv e3 /\ map lin (e_locations e3) = map lin (e_locations e) /\ exists b3, nth_error (e_agents e3) ai = Some b3 /\
      a_timesteps_since_departure b3 = a_timesteps_since_departure a /\
      a_places_travelled b3 = (a_places_travelled a + 1)%Z).
    { unfold e3. match goal with |- context [if ?b then _ else _] => destruct b end.
      - split; [eapply mv_trans; [exact M12|apply mv_up_agent]|]. split; [|split].
        + eapply inv_same; [|exact I2]. apply same_up_agent; reflexivity.
        + exact P2.
        + eexists. cbn [up_agent up_e_agents e_agents]. rewrite nth_upd_same, H2. split; [reflexivity|]. auto.
      - eauto 10. }
    destruct X3 as (M3 & I3 & P3 & b3 & H3 & B1 & B3). clearbody e3.
    rstep H. rename v into e4. pose proof E as E4. apply mv_handle_travel in E4 as [M4 U4].
    pose proof (lin_handle _ _ _ _ _ _ E) as P4. rewrite P3 in P4.
    assert (I4 : Inv e4) by (eapply inv_handle_travel; [exact I3| |exact E]; reflexivity).
    unfold loc_of in H. rstep H. apply of_option_ok in E0. rename v into ep.
    match type of H with context [person_evolve S o t _ ai ?x g1] => set (e5 := x) in * end.
    set (b4 := relocate (PLoc (k_endpoint k)) false b3).
    assert (Ce : camp_at e (k_endpoint k) = l_camp ep).
    { transitivity (camp_at e4 (k_endpoint k)).
      - symmetry. apply (camp_mv ai). eapply mv_trans; eauto.
      - unfold camp_at. now rewrite E0. }
    assert (X5 : Mv ai e e5 /\ Inv e5 /\ nth_error (e_agents e5) ai = Some b4 /\ Buf (0 <? s_log_camp S)%Z e e5 /\
              Permutation (pool e5) (pool e ++ entries S e a [k_endpoint k])).
    { assert (M4' : Mv ai e e4) by (eapply mv_trans; eauto).
      assert (H4 : nth_error (e_agents e4) ai = Some b4) by (rewrite U4, nth_upd_same, H3; reflexivity).
      unfold e5, entries. cbn [filter]. rewrite Ce.
      destruct (0 <? s_log_camp S)%Z eqn:Lg, (l_camp ep) eqn:Cp; cbn [andb List.length repeat].
      2-4: rewrite app_nil_r; do 3 (split; [assumption|]); split; [apply buf_lin; exact P4|rewrite (pool_eq e e4) by exact P4; reflexivity].
      split; [eapply mv_trans; [exact M4'|]; apply mv_up_loc; reflexivity|].
      split; [eapply inv_same; [|exact I4]; apply same_up_loc; lsimpl|]. split; [exact H4|]. split.
      - eapply buf_trans; [apply buf_lin; exact P4|].
        intros j l Hl. cbn [up_loc up_e_locations e_locations]. rewrite nth_upd. destruct (Nat.eqb (k_endpoint k) j) eqn:Ej.
        + apply Nat.eqb_eq in Ej. subst j. rewrite Hl. eexists. split; [reflexivity|]. split; [reflexivity|]. right.
          assert (l = ep) as -> by congruence. rewrite Cp. reflexivity.
        + exists l. split; [exact Hl|]. split; auto.
      - etransitivity; [eapply pool_push; eauto|]. rewrite (pool_eq e e4) by exact P4. reflexivity. }
    destruct X5 as (M5 & I5 & H5 & Bf5 & P5). clearbody e5.
    match type of H with (if ?b then _ else _) = _ => destruct b end.
    + rstep H. rstep H. destruct v0 as [e6 g2].
      pose proof (inv_person_evolve _ _ _ _ _ _ _ _ _ I5 E2) as I6.
      pose proof (lin_person _ _ _ _ _ _ _ _ _ E2) as P6.
      destruct (person_evolve_decided _ _ _ _ _ _ _ _ _ _ I5 E2 H5) as (M6 & _ & b6 & H6 & D6).
      destruct (decided_places _ _ _ D6) as (X1 & X2).
      destruct (IH e6 g2 b6 I6 H H6) as (M7 & Bf7 & a' & ends & b & H7 & D7 & F7 & F8 & P7).
      split; [eapply mv_trans; [exact M5|]; eapply mv_trans; eauto|].
      split; [eapply buf_trans; [exact Bf5|]; eapply buf_trans; [apply buf_lin; exact P6|exact Bf7]|].
      exists a', (k_endpoint k :: ends), b. split; [assumption|]. split.
      { eapply tour_arrive; [exact K|exact Ck|].
        assert (N5 : Net e5 e) by (apply net_sym; eapply net_mv; eauto).
        eapply tour_net; [exact N5|]. change (PLoc (k_endpoint k)) with (a_location b4).
        eapply tour_decided; [exact D6|]. eapply tour_net; [|exact D7]. apply net_sym. eapply net_mv; eauto. }
      split; [rewrite F7, X1; cbn [List.length relocate b4]; cbn; rewrite B3; lia|].
      split; [rewrite F8, X2; exact B1|].
      etransitivity; [exact P7|]. rewrite (pool_eq e5 e6) by exact P6.
      etransitivity; [apply Permutation_app_tail; exact P5|]. rewrite <- app_assoc. apply Permutation_app_head.
      unfold entries. destruct (0 <? s_log_camp S)%Z; [|reflexivity].
      rewrite X2. replace (a_timesteps_since_departure b4) with (a_timesteps_since_departure a) by (symmetry; exact B1).
      rewrite <- repeat_app. cbn [filter].
      rewrite (filter_ext (camp_at e6) (camp_at e)).
      2: { intro j. apply (camp_mv ai). eapply mv_trans; [exact M5|exact M6]. }
      destruct (camp_at e (k_endpoint k)); reflexivity.
    + injection H as <- <-. split; [assumption|]. split; [assumption|]. exists b4, [k_endpoint k], 0%nat.
      split; [assumption|]. split; [eapply tour_arrive; [exact K|exact Ck|constructor]|].
      split; [cbn; rewrite B3; lia|]. split; [exact B1|]. exact P5.
Qed.

(** ** All agents *)

(** What is logged for the agents with numbers [is_] *)
Definition log_of (S : settings) (e : eco) (tours : nat -> list nat) (is_ : list nat) : list Z :=
  flat_map (fun n => match nth_error (e_agents e) n with Some a => entries S e a (tours n) | None => [] end) is_.

Lemma flat_map_ext_in {A B} (f f' : A -> list B) l : (forall a, In a l -> f a = f' a) -> flat_map f l = flat_map f' l.
Proof.
  intro H. induction l as [|a l IH]; [reflexivity|]. cbn. rewrite (H a) by (now left). f_equal. apply IH. intros; apply H; now right.
Qed.

(** One agent in a step, at the end of its travels *)
Definition Toured (e : eco) (ends : list nat) (a a' : agent) : Prop :=
  match a_location a with
  | PGone _ => a' = a /\ ends = []
  | _ => exists b, tour e (a_location a) ends b (a_location a') /\
           a_places_travelled a' = (a_places_travelled a + Z.of_nat (List.length ends) + Z.of_nat b)%Z
  end.
Lemma toured_net e e' ends a a' : Net e e' -> Toured e ends a a' -> Toured e' ends a a'.
Proof. unfold Toured. intro N. destruct (a_location a); auto; intros (b & T & P); exists b; (split; [eapply tour_net; eauto|exact P]). Qed.

Lemma finish_agents_tours fuel S o : forall n k e g e' g', Inv e -> List.length (e_agents e) = (k + n)%nat ->
  foldM (fun st ai =>
           let '(e1, g1) := st in
           a <- agent_of e1 ai ;;
           match a_location a with
           | PGone _ => Ok (e1, g1)
           | _ =>
               '(e2, g2) <- finish_travel fuel S o (e_time e1) ai e1 g1 ;;
               Ok (up_agent ai (up_a_timesteps_since_departure (fun z => z + 1)%Z) e2, g2)
           end) (seq k n) (e, g) = Ok (e', g') ->
  Net e e' /\ Buf (0 <? s_log_camp S)%Z e e' /\
  e_num_arrivals e' = e_num_arrivals e /\ e_travel_durations e' = e_travel_durations e /\
  (forall ai, (ai < k)%nat -> nth_error (e_agents e') ai = nth_error (e_agents e) ai) /\
  exists tours, (forall ai a, (k <= ai)%nat -> nth_error (e_agents e) ai = Some a -> exists a', nth_error (e_agents e') ai = Some a' /\
                   Toured e (tours ai) a a') /\
    Permutation (pool e') (pool e ++ log_of S e tours (seq k n)).
Proof.
  induction n as [|n IH]; intros k e g e' g' I Ln H; cbn [seq foldM] in H.
  - injection H as <- <-. do 2 (split; [first [apply net_refl|apply buf_lin; reflexivity]|]). do 3 (split; [auto|]).
    exists (fun _ => []). split; [|cbn; now rewrite app_nil_r]. intros ai a Hk Ha. apply nth_error_lt in Ha. lia.
  - rstep H. destruct v as [e1 g1].
    destruct (nth_error_ex (e_agents e) k) as [a Ha]; [lia|].
    unfold agent_of in E. rewrite Ha in E. cbn [of_option bind] in E.
    assert (X : Inv e1 /\ Mv k e e1 /\ Buf (0 <? s_log_camp S)%Z e e1 /\ exists a1 ends, nth_error (e_agents e1) k = Some a1 /\
      Toured e ends a a1 /\ Permutation (pool e1) (pool e ++ entries S e a ends)).
    { assert (Z : (e1 = e /\ (exists i, a_location a = PGone i)) \/ ((forall i, a_location a <> PGone i) /\ exists e2,
        finish_travel fuel S o (e_time e) k e g = Ok (e2, g1) /\
        e1 = up_agent k (up_a_timesteps_since_departure (fun z => z + 1)%Z) e2)).
      { destruct (a_location a) as [i|ki|i]; [right; split; [congruence|]; rstep E; destruct v as [e2 g2]; injection E as <- <-; eauto..|].
        injection E as <- _. left. eauto. }
      destruct Z as [[-> [i Gi]]|(NG & e2 & F & ->)].
      - split; [exact I|]. split; [auto|]. split; [apply buf_lin; reflexivity|]. exists a, []. split; [exact Ha|].
        split; [unfold Toured; rewrite Gi; auto|]. unfold entries. destruct (0 <? s_log_camp S)%Z; cbn; now rewrite app_nil_r.
      - pose proof (inv_finish_travel _ _ _ _ _ _ _ _ _ I F) as I2.
        destruct (finish_travel_tour _ _ _ _ _ _ _ _ _ _ I F Ha) as (M & Bf & a' & ends & b & H' & T & Pl & Ts & P).
        split; [eapply inv_same; [apply same_up_agent; reflexivity|exact I2]|].
        split; [eapply mv_trans; [exact M|apply mv_up_agent]|]. split; [exact Bf|].
        exists (up_a_timesteps_since_departure (fun z => z + 1)%Z a'), ends.
        cbn [up_agent up_e_agents e_agents]. rewrite nth_upd_same, H'. split; [reflexivity|].
        split; [|exact P]. unfold Toured. destruct (a_location a) eqn:La; [exists b; split; [exact T|exact Pl]..|].
        exfalso. eapply NG; reflexivity. }
    destruct X as (I1 & M1 & Bf1 & a1 & ends & Ha1 & T1 & P1).
    destruct (IH (Datatypes.S k) e1 g1 e' g' I1) as (N2 & Bf2 & A2 & D2 & Lo & tours & Hi & P2); [rewrite (mv_len _ _ _ M1); lia|exact H|].
    pose proof (net_mv _ _ _ M1) as N1.
    split; [eapply net_trans; eauto|]. split; [eapply buf_trans; eauto|].
    assert (AD : e_num_arrivals e1 = e_num_arrivals e /\ e_travel_durations e1 = e_travel_durations e)
      by (destruct M1 as [M1 _ _ _ _]; rewrite M1; auto).
    destruct AD as [A1 D1]. split; [congruence|]. split; [congruence|].
    split; [intros ai Hai; rewrite Lo by lia; apply (mv_others _ _ _ M1); lia|].
    exists (fun m => if Nat.eqb m k then ends else tours m). split.
    + intros ai b Hai Hb. destruct (Nat.eqb_spec ai k) as [->|Ne].
      * assert (b = a) as -> by congruence. exists a1. rewrite Lo by lia. auto.
      * rewrite <- (mv_others _ _ _ M1 ai Ne) in Hb. destruct (Hi ai b) as (a' & Ha' & T'); [lia|exact Hb|].
        exists a'. split; [exact Ha'|]. eapply toured_net; [apply net_sym; exact N1|exact T'].
    + etransitivity; [exact P2|]. etransitivity; [apply Permutation_app_tail; exact P1|].
      rewrite <- app_assoc. apply Permutation_app_head. unfold log_of. cbn [seq flat_map]. rewrite Ha, Nat.eqb_refl.
      apply Permutation_app_head. erewrite flat_map_ext_in; [reflexivity|]. intros m Hm. apply in_seq in Hm. cbv beta.
      rewrite (mv_others _ _ _ M1 m) by lia. destruct (Nat.eqb_spec m k) as [->|_]; [lia|].
      destruct (nth_error (e_agents e) m) as [b|]; [|reflexivity]. unfold entries.
      rewrite (filter_ext (camp_at e1) (camp_at e)); [reflexivity|]. intro j. eapply camp_mv; eauto.
Qed.

(** The first phase of a step does not log arrivals. *)
Lemma evolve_agents_lin S o e g e' g' : evolve_agents S o e g = Ok (e', g') ->
  map lin (e_locations e') = map lin (e_locations e) /\
  e_num_arrivals e' = e_num_arrivals e /\ e_travel_durations e' = e_travel_durations e.
Proof.
  unfold evolve_agents; intro H.
  eapply (foldM_rel (fun s s' => map lin (e_locations (fst s')) = map lin (e_locations (fst s)) /\
    e_num_arrivals (fst s') = e_num_arrivals (fst s) /\ e_travel_durations (fst s') = e_travel_durations (fst s))) in H; [exact H|auto|..].
  - intros a b c (A1 & A2 & A3) (B1 & B2 & B3); repeat split; congruence.
  - intros [ea ga] ai [eb gb] _ Hs. cbv beta iota zeta in Hs. cbn [fst].
    set (e2 := if (1 <? s_log_agent S)%Z then _ else ea) in *.
    assert (X : map lin (e_locations e2) = map lin (e_locations ea) /\
      e_num_arrivals e2 = e_num_arrivals ea /\ e_travel_durations e2 = e_travel_durations ea)
      by (unfold e2; destruct (1 <? s_log_agent S)%Z; auto).
    destruct X as (X1 & X2 & X3). clearbody e2. rewrite <- X1, <- X2, <- X3. clear X1 X2 X3.
    unfold agent_of in Hs. rstep Hs. apply of_option_ok in E.
    rstep Hs; [| |injection Hs as <- _; auto].
    1,2: split; [eapply lin_person; eauto|]; apply person_evolve_spec in Hs as [->|(a0 & i0 & l0 & rest & _ & _ & _ & _ & Hs)]; auto;
      (destruct Hs as [->|(ki & _ & Hs)]; [auto|]; apply mv_handle_travel in Hs as [MM _]; destruct MM as [MM1 _ _ _ _]; rewrite MM1; auto).
Qed.

Lemma mean_perm l l' : Permutation l l' -> mean l = mean l'.
Proof.
  intro H. unfold mean. pose proof (Permutation_length H) as Ln.
  assert (Sm : fold_right Z.add 0%Z l = fold_right Z.add 0%Z l') by (clear Ln; induction H; cbn; lia).
  destruct l, l'; try discriminate Ln; [reflexivity|]. rewrite Sm, Ln. reflexivity.
Qed.

(** The log in terms of [camp_arrivals] *)
Lemma log_arrivals S e tours : (0 <? s_log_camp S)%Z = true ->
  log_of S e tours (seq 0 (List.length (e_agents e))) = map a_timesteps_since_departure (camp_arrivals e tours).
Proof.
  intro Lg. unfold log_of, camp_arrivals, entries. rewrite Lg.
  assert (X : forall (ags : list agent) k, (forall n a, nth_error ags n = Some a -> nth_error (e_agents e) (k + n)%nat = Some a) ->
    flat_map (fun n => match nth_error (e_agents e) n with
      | Some a => repeat (a_timesteps_since_departure a) (List.length (filter (camp_at e) (tours n))) | None => [] end) (seq k (List.length ags)) =
    map a_timesteps_since_departure (flat_map (fun na => repeat (snd na) (List.length (filter (camp_at e) (tours (fst na))))) (combine (seq k (List.length ags)) ags))).
  { induction ags as [|a ags IH]; intros k H; [reflexivity|]. cbn [List.length seq flat_map combine fst snd]. rewrite map_app. f_equal.
    - rewrite <- (Nat.add_0_r k), (H 0%nat a eq_refl), Nat.add_0_r. generalize (List.length (filter (camp_at e) (tours k))). intro n.
      induction n; cbn; congruence.
    - apply IH. intros n b Hn. rewrite Nat.add_succ_comm. exact (H (Datatypes.S n) b Hn). }
  apply X. intros n a Hn. exact Hn.
Qed.

(** ** A whole step *)

Definition quiet (e : eco) : Prop := forall l, In l (e_locations e) -> l_incoming_journey_lengths l = [].

Lemma quiet_pool e : quiet e -> pool e = [].
Proof.
  unfold quiet, pool. induction (e_locations e) as [|l ls IH]; intro H; [reflexivity|]. cbn.
  assert (X : flat_map l_incoming_journey_lengths (filter l_camp ls) = []) by (apply IH; intros; apply H; now right).
  destruct (l_camp l); cbn; [|exact X]. rewrite H, X by (now left). reflexivity.
Qed.

Theorem evolve_arrivals fuel S o e g e' g' : Inv e -> quiet e -> evolve fuel S o e g = Ok (e', g') ->
  quiet e' /\
  exists tours, (forall n a, nth_error (e_agents e) n = Some a -> exists a', nth_error (e_agents e') n = Some a' /\
      if deactivated a then tours n = [] else exists back p', tour e (a_location a) (tours n) back p' /\
        (a_location a' = p' \/ exists i, p' = PLoc i /\ a_location a' = PGone i) /\
        a_places_travelled a' = (a_places_travelled a + Z.of_nat (List.length (tours n)) + Z.of_nat back)%Z) /\
    if (0 <? s_log_camp S)%Z then
      e_num_arrivals e' = e_num_arrivals e ++ [Z.of_nat (List.length (camp_arrivals e tours))] /\
      e_travel_durations e' = e_travel_durations e ++ [mean (map a_timesteps_since_departure (camp_arrivals e tours))]
    else e_num_arrivals e' = e_num_arrivals e /\ e_travel_durations e' = e_travel_durations e.
Proof.
  intros I Q H. unfold evolve in H. rstep H. rename v into e0.
  assert (N0 : Net e e0) by (unfold refresh_spawn_weights in E; rinv E; split; reflexivity).
  assert (A0 : e_agents e0 = e_agents e /\ e_locations e0 = e_locations e /\ e_num_arrivals e0 = e_num_arrivals e /\ e_travel_durations e0 = e_travel_durations e)
    by (unfold refresh_spawn_weights in E; rinv E; auto).
  destruct A0 as (A0 & L0 & R0 & T0).
  assert (I0 : Inv e0) by (eapply inv_same; [eapply sl_same, still_refresh; eauto|assumption]).
  rstep H. destruct v as [e1 g1].
  pose proof (sl_same _ _ (still_update_scores _ _ _ _ _ _ E0)) as Sm1.
  pose proof (sl_agents _ _ (still_update_scores _ _ _ _ _ _ E0)) as A1.
  assert (I1 : Inv e1) by (eapply inv_same; eauto).
  apply sc_update_scores in E0 as [C1 _]. pose proof (net_sc _ _ C1) as N1. destruct C1 as [C1 C2].
  assert (L1 : map lin (e_locations e1) = map lin (e_locations e)) by (rewrite <- L0; exact (map_via lsc lin _ _ C2)).
  assert (R1 : e_num_arrivals e1 = e_num_arrivals e /\ e_travel_durations e1 = e_travel_durations e) by (rewrite C1; auto).
  destruct R1 as [R1 T1]. rstep H. destruct v as [e2 g2].
  destruct (evolve_agents_decided _ _ _ _ _ _ I1 E0) as (I2 & N2 & _ & D2).
  pose proof (evolve_agents_lin _ _ _ _ _ _ E0) as (L2 & R2 & T2).
  rstep H. destruct v as [e3 g3]. unfold finish_agents in E1.
  destruct (finish_agents_tours fuel S o (List.length (e_agents e2)) 0 e2 g2 e3 g3 I2 eq_refl E1) as (N3 & B3 & R3 & T3 & _ & tours & D3 & P3).
  rstep H. rename v into e4. rstep H. rename v into e5.
  assert (A5 : e_agents e5 = e_agents e3 /\ e_locations e5 = e_locations e3 /\ e_num_arrivals e5 = e_num_arrivals e3 /\ e_travel_durations e5 = e_travel_durations e3).
  { assert (X : e_agents e4 = e_agents e3 /\ e_locations e4 = e_locations e3 /\ e_num_arrivals e4 = e_num_arrivals e3 /\ e_travel_durations e4 = e_travel_durations e3)
      by (unfold write_agents in E2; rinv E2; auto).
    destruct X as (<- & <- & <- & <-). unfold write_links in E3; rinv E3; auto. }
  destruct A5 as (A5 & L5 & R5 & T5).
  rstep H. rename v into e6. unfold update_recent in E4. rstep E4. rename v into ag. injection E4 as <-.
  cbv zeta in H. rstep H. destruct v as [e8 g4]. injection H as <- <-.
  pose proof (deactivate_spec _ _ _ _ _ E4) as (_ & L8 & _ & _ & _ & _ & D8).
  assert (R8 : e_num_arrivals e8 = e_num_arrivals (aggregate_arrivals S (up_e_agents (fun _ => ag) e5)) /\
               e_travel_durations e8 = e_travel_durations (aggregate_arrivals S (up_e_agents (fun _ => ag) e5))).
  { revert E4. generalize (aggregate_arrivals S (up_e_agents (fun _ => ag) e5)). clear. intros e E4. unfold deactivate in E4.
    destruct (s_camps_are_sinks S); [|rinv E4; auto].
    eapply (foldM_rel (fun s s' => e_num_arrivals (fst s') = e_num_arrivals (fst s) /\ e_travel_durations (fst s') = e_travel_durations (fst s))) in E4; [exact E4|auto|intros ? ? ? [] []; split; congruence|].
    intros [ea ga] ai [eb gb] _ Hs. cbn [fst]. rstep Hs. rstep Hs; [rinv Hs; auto|].
    rstep Hs; try discriminate; [|rinv Hs; auto]. rstep Hs. rstep Hs; [|rinv Hs; auto].
    destruct (rng_u ga). do 2 rstep Hs. rstep Hs; rinv Hs; auto. }
  destruct R8 as [R8 T8]. cbn [up_e_time e_agents e_locations e_num_arrivals e_travel_durations].
  assert (NT : Net e e2) by (eapply net_trans; [eapply net_trans; eauto|exact N2]).
  assert (PE : pool e2 = []) by (rewrite (pool_eq e e2) by congruence; now apply quiet_pool).
  rewrite PE in P3. cbn [app] in P3.
  assert (Ag : forall n a, nth_error (e_agents e) n = Some a -> exists a2, nth_error (e_agents e2) n = Some a2 /\ R_evolve S e1 a a2).
  { intros n a Ha. apply D2. congruence. }
  assert (Ts : forall n a a2, nth_error (e_agents e) n = Some a -> nth_error (e_agents e2) n = Some a2 ->
    a_timesteps_since_departure a2 = a_timesteps_since_departure a).
  { intros n a a2 Ha Ha2. destruct (Ag n a Ha) as (a2' & Ha2' & _ & X & Y). assert (a2' = a2) as -> by congruence.
    destruct (gone_of a) as [i|] eqn:Gn.
    - specialize (Y ltac:(discriminate)). apply (f_equal a_timesteps_since_departure) in Y. exact Y.
    - destruct (X eq_refl) as (b & U & D). apply decided_places in D as [_ D]. rewrite D.
      apply (f_equal a_timesteps_since_departure) in U. exact U. }
  assert (Ln : List.length (e_agents e2) = List.length (e_agents e)).
  { rewrite <- A0, <- A1. unfold evolve_agents in E0.
    eapply (foldM_rel (fun s s' => List.length (e_agents (fst s')) = List.length (e_agents (fst s)))) in E0; [exact E0|auto|congruence|].
    clear. intros [ea ga] ai [eb gb] _ Hs. cbv beta iota zeta in Hs. cbn [fst].
    set (ec := if (1 <? s_log_agent S)%Z then _ else ea) in *.
    assert (X : List.length (e_agents ec) = List.length (e_agents ea)) by (unfold ec; destruct (1 <? s_log_agent S)%Z; [cbn; apply upd_length|reflexivity]).
    rewrite <- X. clearbody ec. rstep Hs.
    rstep Hs; [| |injection Hs as <- _; auto].
    1,2: apply person_evolve_spec in Hs as [->|(a0 & i0 & l0 & rest & _ & _ & _ & _ & Hs)]; auto;
      (destruct Hs as [->|(ki & _ & Hs)]; [apply upd_length|]; apply mv_handle_travel in Hs as [MM _]; destruct MM as [_ _ _ MM1 _]; rewrite MM1; apply upd_length). }
  assert (Cm : forall i, camp_at e2 i = camp_at e i).
  { intro i. apply camp_lin. assert (X : map lin (e_locations e2) = map lin (e_locations e)) by congruence.
    exact (map_via lin fst _ _ X). }
  assert (LG : log_of S e2 tours (seq 0 (List.length (e_agents e2))) = log_of S e tours (seq 0 (List.length (e_agents e)))).
  { unfold log_of. rewrite Ln. apply flat_map_ext_in. intros n Hn. apply in_seq in Hn.
    destruct (nth_error_ex (e_agents e) n) as [a Ha]; [lia|]. destruct (Ag n a Ha) as (a2 & Ha2 & _). rewrite Ha, Ha2.
    unfold entries. rewrite (Ts n a a2 Ha Ha2), (filter_ext (camp_at e2) (camp_at e)) by exact Cm. reflexivity. }
  rewrite LG in P3. 
  assert (Q3 : Buf (0 <? s_log_camp S)%Z e e3).
  { eapply buf_trans; [|exact B3]. apply buf_lin. congruence. }
  split.
  { (* buffers *)
    unfold quiet. cbn [up_e_time e_locations]. rewrite L8. unfold aggregate_arrivals. destruct (0 <? s_log_camp S)%Z eqn:Lg.
    - cbn [up_e_travel_durations up_e_num_arrivals up_e_locations e_locations up_e_agents]. rewrite L5.
      intros l Hl. apply in_map_iff in Hl as (l3 & <- & Hl3). destruct (l_camp l3) eqn:Cl; [reflexivity|].
      apply In_nth_error in Hl3 as [i Hi]. destruct (nth_error_ex (e_locations e) i) as [l0 Hl0].
      { apply nth_error_lt in Hi. assert (X : List.length (e_locations e3) = List.length (e_locations e)).
        { pose proof (net_trans _ _ _ NT N3) as [X _ _ _ _]. apply (f_equal (@List.length _)) in X. now rewrite !map_length in X. }
        lia. }
      destruct (Q3 i l0 Hl0) as (l3' & Hi' & C3 & [W|W]); assert (l3' = l3) as -> by congruence.
      + rewrite W. apply Q. eapply nth_error_In; eauto.
      + cbn in W. congruence.
    - cbn [up_e_agents e_locations]. rewrite L5. intros l Hl. apply In_nth_error in Hl as [i Hi].
      destruct (nth_error_ex (e_locations e) i) as [l0 Hl0].
      { apply nth_error_lt in Hi. assert (X : List.length (e_locations e3) = List.length (e_locations e)).
        { pose proof (net_trans _ _ _ NT N3) as [X _ _ _ _]. apply (f_equal (@List.length _)) in X. now rewrite !map_length in X. }
        lia. }
      destruct (Q3 i l0 Hl0) as (l3' & Hi' & C3 & [W|W]); assert (l3' = l) as -> by congruence.
      + rewrite W. apply Q. eapply nth_error_In; eauto.
      + discriminate W. }
  exists tours. split.
  - (* agents *)
    intros n a Ha. destruct (Ag n a Ha) as (a2 & Ha2 & G2 & X & Y).
    destruct (D3 n a2) as (a3 & Ha3 & T); [lia|exact Ha2|]. rewrite <- A5 in Ha3.
    destruct (mapM_nth _ _ _ _ _ E5 Ha3) as (a6 & Ha6 & H6). rstep H6. injection H6 as <-.
    destruct (D8 n (up_a_distance_moved_this_timestep (fun _ => 0) (up_a_recent_travel_distance (fun q => (q + v) / 2) a3))) as (a' & Ha' & Da').
    { unfold aggregate_arrivals. destruct (0 <? s_log_camp S)%Z; exact Ha6. }
    exists a'. split; [exact Ha'|]. unfold deactivated.
    destruct (gone_of a) as [i0|] eqn:Gn.
    + unfold Toured in T. unfold gone_of in G2, Gn. destruct (a_location a); try discriminate. destruct (a_location a2); try discriminate. apply T.
    + destruct (X eq_refl) as (b & U & D). unfold Toured in T.
      assert (NG : match a_location a2 with PGone _ => False | _ => True end) by (unfold gone_of in G2; destruct (a_location a2); [auto..|congruence]).
      assert (T' : exists bk, tour e2 (a_location a2) (tours n) bk (a_location a3) /\
         a_places_travelled a3 = (a_places_travelled a2 + Z.of_nat (List.length (tours n)) + Z.of_nat bk)%Z) by (destruct (a_location a2); tauto).
      destruct T' as (bk & T1' & Pl).
      pose proof (decided_places _ _ _ D) as [Dp _].
      assert (Ub : a_location b = a_location a /\ a_places_travelled b = a_places_travelled a).
      { split; [apply (f_equal a_location) in U|apply (f_equal a_places_travelled) in U]; exact U. }
      destruct Ub as [Ub1 Ub2].
      assert (TT : tour e (a_location a) (tours n) bk (a_location a3)).
      { eapply tour_net; [apply net_sym, (net_trans _ _ _ N0 N1)|]. rewrite <- Ub1. eapply tour_decided; [exact D|].
        eapply tour_net; [apply net_sym; exact N2|exact T1']. }
      assert (RR : exists back p', tour e (a_location a) (tours n) back p' /\
        (a_location a' = p' \/ exists i, p' = PLoc i /\ a_location a' = PGone i) /\
        a_places_travelled a' = (a_places_travelled a + Z.of_nat (List.length (tours n)) + Z.of_nat back)%Z).
      { exists bk, (a_location a3). split; [exact TT|].
        destruct Da' as [->|(i & l & -> & La & _)]; [|cbn in La]; cbn; (split; [eauto|lia]). }
      unfold gone_of in Gn. destruct (a_location a); [exact RR..|discriminate].
  - rewrite R8, T8. unfold aggregate_arrivals.
    destruct (0 <? s_log_camp S)%Z eqn:Lg;
      cbn [up_e_travel_durations up_e_num_arrivals up_e_locations up_e_agents e_travel_durations e_num_arrivals e_locations];
      rewrite R5, R3, R2, R1, T5, T3, T2, T1; [|auto].
    rewrite L5. rewrite (log_arrivals S e tours Lg) in P3. fold (pool e3).
    pose proof (Permutation_length P3) as PL. rewrite map_length in PL. rewrite PL. split; [reflexivity|]. f_equal. f_equal.
    rewrite <- (mean_perm _ _ P3). unfold mean. rewrite <- PL. destruct (pool e3); reflexivity.
Qed.

(** Between steps the buffers are empty. *)
Lemma quiet_profile e e' : Prof1 e e' -> quiet e -> quiet e'.
Proof.
  intros [_ H] Q l Hl. apply (in_map profile1) in Hl. rewrite H in Hl. apply in_map_iff in Hl as (l0 & E & Hl0).
  apply (f_equal l_incoming_journey_lengths) in E. cbn in E. rewrite <- E. now apply Q.
Qed.
Lemma quiet_up i f e : (forall l, l_incoming_journey_lengths (f l) = l_incoming_journey_lengths l) -> quiet e -> quiet (up_loc i f e).
Proof.
  intros H Q l Hl. cbn [up_loc up_e_locations e_locations] in Hl. apply In_upd in Hl. destruct Hl as [Hl|(a & Ha & ->)]; auto.
  rewrite H. apply Q. eapply nth_error_In; eauto.
Qed.
Lemma new_location_quiet S d n r x y lt mc cap pop f c did l : new_location S d n r x y lt mc cap pop f c did = Ok l ->
  l_incoming_journey_lengths l = [].
Proof.
  unfold new_location; intro H. rstep H. rinv H. unfold parse_location_type in E.
  assert (X : forall l, l_incoming_journey_lengths (auto_camp l) = l_incoming_journey_lengths l)
    by (intro; unfold auto_camp; destruct (_ && _)%bool; reflexivity).
  rewrite X. rinv E; reflexivity.
Qed.
Lemma step_quiet o S c e g e' g' : Inv e -> step o S c e g = Ok (e', g') -> quiet e -> quiet e'.
Proof.
  intros I H Q. destruct (is_evolve c) eqn:V.
  - destruct c; try discriminate. cbn [step] in H. eapply evolve_arrivals in H as [H _]; eauto.
  - revert Q. eapply (step_profile S (fun e e' => quiet e -> quiet e')); [..|exact V|exact H]; cbv beta.
    + auto.
    + apply quiet_profile.
    + intros o0 n r x y lt mc cap pop f c0 at_ e0 g0 e1 g1 H0 Q l Hl. apply add_location_profile1 in H0 as (d & did & l0 & N & L & T).
      apply (in_map profile1) in Hl. rewrite L in Hl. apply in_app_or in Hl as [Hl|[Hl|[]]].
      * apply in_map_iff in Hl as (l1 & E & Hl1). apply (f_equal l_incoming_journey_lengths) in E. cbn in E. rewrite <- E. now apply Q.
      * apply new_location_quiet in N. apply (f_equal l_incoming_journey_lengths) in Hl. cbn in Hl. congruence.
    + intros i e0 _. apply quiet_up. intro l. unfold take. destruct (0 <? l_pop l)%Z; reflexivity.
    + intros i f e0 Hf. apply quiet_up. intro l. specialize (Hf l). apply (f_equal l_incoming_journey_lengths) in Hf. exact Hf.
    + intros i e0. apply quiet_up. reflexivity.
    + intros d e0 Q l Hl. unfold reduce_capacities in Hl. cbn [up_e_locations e_locations] in Hl.
      apply in_map_iff in Hl as (l0 & <- & Hl0). specialize (Q l0 Hl0). destruct (0 <? l_capacity l0)%Z; exact Q.
Qed.
Theorem reachable_quiet o e g : reachable o e g -> quiet e.
Proof.
  intros (h & g0 & H). unfold run in H.
  eapply (foldM_inv (fun s => Inv (fst s) /\ quiet (fst s))) in H; [apply H|..].
  - intros [e1 g1] [S c] [e2 g2] _ [I T] Hs. cbn [fst snd] in *. split; [eapply step_inv; eauto|]. eapply step_quiet; eauto.
  - cbn. split; [apply inv_empty|]. intros l [].
Qed.
Theorem arrivals_spec o fuel S e g e' g' : reachable o e g -> evolve fuel S o e g = Ok (e', g') ->
  exists tours, (forall n a, nth_error (e_agents e) n = Some a -> exists a', nth_error (e_agents e') n = Some a' /\
      if deactivated a then tours n = [] else exists back p', tour e (a_location a) (tours n) back p' /\
        (a_location a' = p' \/ exists i, p' = PLoc i /\ a_location a' = PGone i) /\
        a_places_travelled a' = (a_places_travelled a + Z.of_nat (List.length (tours n)) + Z.of_nat back)%Z) /\
    if (0 <? s_log_camp S)%Z then
      e_num_arrivals e' = e_num_arrivals e ++ [Z.of_nat (List.length (camp_arrivals e tours))] /\
      e_travel_durations e' = e_travel_durations e ++ [mean (map a_timesteps_since_departure (camp_arrivals e tours))]
    else e_num_arrivals e' = e_num_arrivals e /\ e_travel_durations e' = e_travel_durations e.
Proof. intros R H. eapply evolve_arrivals; eauto using reachable_quiet. eapply reachable_inv; eauto. Qed.
