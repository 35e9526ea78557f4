(** * TrafficProofs: links count who enters them *)

From Coq Require Import Lia Lqa.
From Verif Require Import Base State Moving Crawling Scoring Diagnostics Flee DataTable
  Spawning InputGeography Api SpecAgents SpecHistory SpecRoutes SpecTravel SpecZones SpecArrivals SpecTraffic
  Lemmas Inv InvMoves InvStruct Frames ScoreFrames Travel Profile Zones ArrivalProofs.
Local Open Scope list_scope.

(** ** The counters of the links, and events that change them *)

Definition table : Type := list (string * list (pyval * Z)).
Definition ktab (k : link) : Z * table := (k_cumNumAgents k, k_cumByAttribute k).
Definition tabs (e : eco) : list (Z * table) := map ktab (e_links e).

Definition tab_inc (S : settings) (d : dict) (ct : Z * table) : res (Z * table) :=
  if (1 <? s_log_link S)%Z then t <- count_attributes d (snd ct) ;; Ok ((fst ct + 1)%Z, t)
  else Ok ((fst ct + 1)%Z, snd ct).

Definition enter1 (S : settings) (T : list (Z * table)) (ev : dict * nat) : res (list (Z * table)) :=
  ct <- of_option IndexError (nth_error T (snd ev)) ;;
  ct' <- tab_inc S (fst ev) ct ;; Ok (upd (snd ev) (fun _ => ct') T).

Definition Ent (S : settings) (evs : list (dict * nat)) (e e' : eco) : Prop :=
  foldM (enter1 S) evs (tabs e) = Ok (tabs e').

Lemma ent_nil S e e' : tabs e' = tabs e -> Ent S [] e e'.
Proof. intro H. unfold Ent. cbn. now rewrite H. Qed.
Lemma ent_app S l1 l2 a b c : Ent S l1 a b -> Ent S l2 b c -> Ent S (l1 ++ l2) a c.
Proof. unfold Ent. intros A B. rewrite foldM_app, A. exact B. Qed.
Lemma ent_tabs S l a b c : Ent S l a b -> tabs c = tabs b -> Ent S l a c.
Proof. unfold Ent. congruence. Qed.
Lemma tabs_ent S l a b c : tabs b = tabs a -> Ent S l b c -> Ent S l a c.
Proof. unfold Ent. congruence. Qed.

Lemma tabs_dec p e e' : dec_at p e = Ok e' -> tabs e' = tabs e.
Proof.
  unfold dec_at; intro H; destruct p; rinv H; try discriminate; [reflexivity|].
  unfold tabs. cbn. apply map_upd. intro k0. unfold link_dec, ktab. destruct (e_par e); reflexivity.
Qed.
Lemma link_inc_tab S par d k k' : link_inc S par d k = Ok k' -> tab_inc S d (ktab k) = Ok (ktab k').
Proof.
  unfold link_inc, tab_inc. cbv zeta. intro H.
  destruct (1 <? s_log_link S)%Z.
  - rstep H. injection H as <-. cbn [ktab fst snd].
    replace (k_cumByAttribute (if par then _ else _)) with (k_cumByAttribute k) in E by (destruct par; reflexivity).
    rewrite E. destruct par; reflexivity.
  - injection H as <-. destruct par; reflexivity.
Qed.
Lemma upd_map {A B} (f : A -> B) n (h : A -> A) (h' : B -> B) l :
  (forall x, nth_error l n = Some x -> f (h x) = h' (f x)) -> map f (upd n h l) = upd n h' (map f l).
Proof.
  revert n; induction l as [|x l IH]; intros [|n] H; cbn; try reflexivity.
  - rewrite (H x) by reflexivity. reflexivity.
  - rewrite IH; [reflexivity|]. intros y Hy. now apply H.
Qed.

Lemma ent_inc S d p e e' : inc_at S d p e = Ok e' ->
  Ent S (match p with PLink ki => [(d, ki)] | _ => [] end) e e'.
Proof.
  unfold inc_at; intro H; destruct p as [i|ki|i]; [rinv H; now apply ent_nil| |discriminate].
  unfold link_of in H. rstep H. apply of_option_ok in E. rstep H. injection H as <-. apply link_inc_tab in E0.
  unfold Ent, tabs. cbn [foldM]. unfold enter1 at 1. cbn [fst snd]. rewrite nth_error_map, E. cbn [option_map of_option bind].
  rewrite E0. cbn [bind]. f_equal. cbn [up_link up_e_links e_links]. symmetry. apply upd_map. reflexivity.
Qed.
Lemma ent_handle S ai p tr e e' a : handle_travel S ai p tr e = Ok e' -> nth_error (e_agents e) ai = Some a ->
  Ent S (match p with PLink ki => [(a_attributes a, ki)] | _ => [] end) e e'.
Proof.
  unfold handle_travel, agent_of; intros H Ha. rewrite Ha in H. cbn [of_option bind] in H. rstep H. cbv zeta in H. rstep H.
  injection H as <-. apply tabs_dec in E. apply ent_inc in E0.
  eapply tabs_ent; [|eapply ent_tabs; [exact E0|]]; [exact E|reflexivity].
Qed.

(** ** Journeys *)

Lemma journey_net e e' p l p' : Net e e' -> journey e p l p' -> journey e' p l p'.
Proof.
  intros N J. induction J as [p|i ki k l p' O J IH|ki k K C|ki k l p' K C J IH].
  - constructor.
  - destruct (net_open _ _ _ _ _ N O) as (k' & O' & _). econstructor; eauto.
  - destruct (net_link _ _ _ _ N K) as (k' & K' & F & _). injection F as F1 F2 F3 F4. rewrite <- F1.
    eapply journey_back; [exact K'|congruence].
  - destruct (net_link _ _ _ _ N K) as (k' & K' & F & _). injection F as F1 F2 F3 F4.
    eapply journey_arrive; [exact K'|congruence|]. rewrite F2. exact IH.
Qed.

(** The agent goes on: whatever it does next, it has entered [l] before. *)
Definition events (a : agent) (l : list nat) : list (dict * nat) := map (pair (a_attributes a)) l.

Definition On (S : settings) (ai : nat) (l : list nat) (e e' : eco) : Prop :=
  Mv ai e e' /\ forall a, nth_error (e_agents e) ai = Some a ->
    exists a', nth_error (e_agents e') ai = Some a' /\ a_attributes a' = a_attributes a /\
      Ent S (events a l) e e' /\
      forall l2 p', journey e (a_location a') l2 p' -> journey e (a_location a) (l ++ l2) p'.

Definition Done (S : settings) (ai : nat) (l : list nat) (e e' : eco) : Prop :=
  Mv ai e e' /\ forall a, nth_error (e_agents e) ai = Some a ->
    exists a', nth_error (e_agents e') ai = Some a' /\ a_attributes a' = a_attributes a /\
      Ent S (events a l) e e' /\ journey e (a_location a) l (a_location a').

Lemma on_done S ai l e e' : On S ai l e e' -> Done S ai l e e'.
Proof.
  intros [M H]. split; [exact M|]. intros a Ha. destruct (H a Ha) as (a' & H1 & H2 & H3 & H4).
  exists a'. do 3 (split; [assumption|]). rewrite <- (app_nil_r l). apply H4. constructor.
Qed.
Lemma on_then_done S ai l1 l2 a b c : On S ai l1 a b -> Done S ai l2 b c -> Done S ai (l1 ++ l2) a c.
Proof.
  intros [M1 H1] [M2 H2]. split; [eapply mv_trans; eauto|]. intros x Hx.
  destruct (H1 x Hx) as (y & Y1 & Y2 & Y3 & Y4). destruct (H2 y Y1) as (z & Z1 & Z2 & Z3 & Z4).
  exists z. split; [assumption|]. split; [congruence|]. split.
  - unfold events in *. rewrite map_app. eapply ent_app; [exact Y3|]. rewrite Y2 in Z3. exact Z3.
  - apply Y4. eapply journey_net; [apply net_sym; eapply net_mv; exact M1|exact Z4].
Qed.
Lemma on_trans S ai l1 l2 a b c : On S ai l1 a b -> On S ai l2 b c -> On S ai (l1 ++ l2) a c.
Proof.
  intros [M1 H1] [M2 H2]. split; [eapply mv_trans; eauto|]. intros x Hx.
  destruct (H1 x Hx) as (y & Y1 & Y2 & Y3 & Y4). destruct (H2 y Y1) as (z & Z1 & Z2 & Z3 & Z4).
  exists z. split; [assumption|]. split; [congruence|]. split.
  - unfold events in *. rewrite map_app. eapply ent_app; [exact Y3|]. rewrite Y2 in Z3. exact Z3.
  - intros l p' J. rewrite <- app_assoc. apply Y4.
    eapply journey_net; [apply net_sym; eapply net_mv; exact M1|]. apply Z4.
    eapply journey_net; [eapply net_mv; exact M1|exact J].
Qed.
Lemma on_refl S ai e : On S ai [] e e.
Proof. split; [apply mv_refl|]. intros a Ha. exists a. repeat split; auto. Qed.
Lemma on_up_agent S ai f e : (forall a, a_attributes (f a) = a_attributes a) ->
  (forall a, a_location (f a) = a_location a) -> On S ai [] e (up_agent ai f e).
Proof.
  intros F1 F2. split; [apply mv_up_agent|]. intros a Ha. exists (f a). cbn [up_agent up_e_agents e_agents].
  rewrite nth_upd_same, Ha. split; [reflexivity|]. split; [apply F1|]. split; [now apply ent_nil|].
  rewrite F2. auto.
Qed.
Lemma on_leave S ai ki i l a e e' : nth_error (e_agents e) ai = Some a -> a_location a = PLoc i ->
  nth_error (e_locations e) i = Some l -> In ki (l_links l) -> Inv e ->
  handle_travel S ai (PLink ki) true e = Ok e' -> On S ai [ki] e e'.
Proof.
  intros Ha L Hl I IV H. split; [now apply mv_handle_travel in H|]. intros x Hx. assert (x = a) as -> by congruence.
  pose proof (ent_handle _ _ _ _ _ _ _ H Ha) as En. apply mv_handle_travel in H as [M U].
  exists (relocate (PLink ki) true a). rewrite U, nth_upd_same, Ha. split; [reflexivity|]. split; [reflexivity|].
  split; [exact En|]. intros l2 p' J. rewrite L.
  destruct (st_loc _ (i_struct _ IV) i l Hl) as (_ & _ & _ & O & _). destruct (O ki I) as (k & K & _).
  apply (journey_leave e i ki k); [exists l; auto|exact J].
Qed.
Lemma on_arrive S ai ki k a e e' : nth_error (e_agents e) ai = Some a -> a_location a = PLink ki ->
  nth_error (e_links e) ki = Some k -> k_closed k = false ->
  handle_travel S ai (PLoc (k_endpoint k)) false e = Ok e' -> On S ai [] e e'.
Proof.
  intros Ha L K C H. split; [now apply mv_handle_travel in H|]. intros x Hx. assert (x = a) as -> by congruence.
  pose proof (ent_handle _ _ _ _ _ _ _ H Ha) as En. apply mv_handle_travel in H as [M U].
  exists (relocate (PLoc (k_endpoint k)) false a). rewrite U, nth_upd_same, Ha. split; [reflexivity|]. split; [reflexivity|].
  split; [exact En|]. intros l2 p' J. rewrite L. eapply journey_arrive; eauto.
Qed.
Lemma done_back S ai ki k a e e' : nth_error (e_agents e) ai = Some a -> a_location a = PLink ki ->
  nth_error (e_links e) ki = Some k -> k_closed k = true ->
  handle_travel S ai (PLoc (k_startpoint k)) false e = Ok e' -> Done S ai [] e e'.
Proof.
  intros Ha L K C H. split; [now apply mv_handle_travel in H|]. intros x Hx. assert (x = a) as -> by congruence.
  pose proof (ent_handle _ _ _ _ _ _ _ H Ha) as En. apply mv_handle_travel in H as [M U].
  exists (relocate (PLoc (k_startpoint k)) false a). rewrite U, nth_upd_same, Ha. split; [reflexivity|]. split; [reflexivity|].
  split; [exact En|]. rewrite L. eapply journey_back; eauto.
Qed.

Lemma on_person_evolve S o t f ai e g e' g' : Inv e ->
  person_evolve S o t f ai e g = Ok (e', g') -> exists l, On S ai l e e'.
Proof.
  intros IV H. apply person_evolve_spec in H as [->|(a & i & l & rest & Ha & T & L & Hl & H)].
  { exists []. apply on_refl. }
  destruct H as [->|(ki & I & H)].
  - exists []. apply on_up_agent; reflexivity.
  - exists ([] ++ [ki]). eapply on_trans; [apply (on_up_agent S ai (up_a_route (fun _ => Some rest))); reflexivity|].
    eapply (on_leave S ai ki i l (up_a_route (fun _ => Some rest) a)); [|exact L|exact Hl|exact I| |exact H].
    + cbn [up_agent up_e_agents e_agents]. rewrite nth_upd_same, Ha. reflexivity.
    + eapply inv_same; [apply same_up_agent; reflexivity|exact IV].
Qed.

Lemma done_finish_travel fuel S o t ai e g e' g' : Inv e ->
  finish_travel fuel S o t ai e g = Ok (e', g') -> exists l, Done S ai l e e'.
Proof.
  revert e g; induction fuel as [|fuel IH]; intros e g IV H; cbn [finish_travel] in H;
    unfold agent_of in H; rstep H; apply of_option_ok in E; rename v into a, E into Ha;
    (destruct (a_travelling a) eqn:T; cbn [negb] in H; [|injection H as <- <-; exists []; apply on_done, on_refl]);
    [discriminate|].
  destruct (a_location a) as [|ki|] eqn:L; try discriminate.
  unfold link_of in H. rstep H. apply of_option_ok in E. rename v into k, E into K.
  rstep H. destruct v as [s g1]. cbv zeta in H. clear E.
  match type of H with context [up_agent ai ?f e] =>
    assert (O1 : On S ai [] e (up_agent ai f e)) by (apply on_up_agent; reflexivity);
    assert (S1 : Same e (up_agent ai f e)) by (apply same_up_agent; reflexivity); set (f1 := f) in * end.
  assert (H1 : nth_error (e_agents (up_agent ai f1 e)) ai = Some (f1 a)) by (cbn; rewrite nth_upd_same, Ha; reflexivity).
  assert (K1 : e_links (up_agent ai f1 e) = e_links e) by reflexivity.
  set (e1 := up_agent ai f1 e) in *. clearbody e1.
  assert (I1 : Inv e1) by (eapply inv_same; eauto).
  destruct (Qltb (k_distance k) (a_distance_travelled_on_link a + s)).
  2: { injection H as <- <-. exists []. now apply on_done. }
  match type of H with context [up_agent ai ?f e1] =>
    assert (O2 : On S ai [] e1 (up_agent ai f e1)) by (apply on_up_agent; intro; destruct (0 <? s_log_agent S)%Z; reflexivity);
    assert (S2 : Same e1 (up_agent ai f e1))
      by (apply same_up_agent; intro; destruct (0 <? s_log_agent S)%Z; reflexivity); set (f2 := f) in * end.
  assert (H2 : nth_error (e_agents (up_agent ai f2 e1)) ai = Some (f2 (f1 a))).
  { cbn [up_agent up_e_agents e_agents]. rewrite nth_upd_same, H1; reflexivity. }
  assert (L2 : a_location (f2 (f1 a)) = PLink ki) by (unfold f2; destruct (0 <? s_log_agent S)%Z; exact L).
  assert (K2 : e_links (up_agent ai f2 e1) = e_links e) by exact K1.
  set (e2 := up_agent ai f2 e1) in *. set (b2 := f2 (f1 a)) in *. clearbody b2 e2.
  assert (I2 : Inv e2) by (eapply inv_same; eauto).
  assert (O12 : On S ai [] e e2) by exact (on_trans _ _ [] [] _ _ _ O1 O2).
  destruct (k_closed k) eqn:Ck.
  - rstep H. injection H as <- <-. exists ([] ++ []). eapply on_then_done; [exact O12|].
    eapply done_back; [exact H2|exact L2|rewrite K2; exact K|exact Ck|exact E].
  - match type of H with context [handle_travel S ai _ false ?x] => set (e3 := x) in * end.
    assert (X3 : On S ai [] e2 e3 /\ Inv e3 /\ e_links e3 = e_links e /\ exists b3, nth_error (e_agents e3) ai = Some b3 /\ a_location b3 = PLink ki).
    { unfold e3. match goal with |- context [if ?b then _ else _] => destruct b end.
      - split; [apply on_up_agent; reflexivity|]. split; [eapply inv_same; [apply same_up_agent; reflexivity|exact I2]|].
        split; [exact K2|]. eexists. cbn [up_agent up_e_agents e_agents]. rewrite nth_upd_same, H2. split; [reflexivity|exact L2].
      - split; [apply on_refl|]. eauto. }
    destruct X3 as (O3 & I3 & K3 & b3 & H3 & L3). clearbody e3.
    rstep H. rename v into e4.
    assert (O4 : On S ai [] e3 e4) by (eapply on_arrive; [exact H3|exact L3|rewrite K3; exact K|exact Ck|exact E]).
    assert (I4 : Inv e4) by (eapply inv_handle_travel; [exact I3| |exact E]; reflexivity).
    unfold loc_of in H. rstep H. apply of_option_ok in E0. rename v into ep.
    match type of H with context [person_evolve S o t _ ai ?x g1] => set (e5 := x) in * end.
    assert (X5 : On S ai [] e4 e5 /\ Inv e5).
    { unfold e5. match goal with |- context [if ?b then _ else _] => destruct b end; [|split; [apply on_refl|exact I4]].
      split; [|eapply inv_same; [apply same_up_loc; lsimpl|exact I4]].
      split.
      - split; try reflexivity. unfold up_loc. cbn [up_e_locations e_locations]. apply map_upd. reflexivity.
      - intros x Hx. exists x. repeat split; auto. }
    destruct X5 as (O5 & I5). clearbody e5.
    assert (O15 : On S ai [] e e5).
    { exact (on_trans _ _ [] [] _ _ _ O12 (on_trans _ _ [] [] _ _ _ O3 (on_trans _ _ [] [] _ _ _ O4 O5))). }
    match type of H with (if ?b then _ else _) = _ => destruct b end.
    + rstep H. rstep H. destruct v0 as [e6 g2]. pose proof (inv_person_evolve _ _ _ _ _ _ _ _ _ I5 E2) as I6.
      destruct (on_person_evolve _ _ _ _ _ _ _ _ _ I5 E2) as [l6 O6].
      destruct (IH _ _ I6 H) as [l7 D7]. exists ([] ++ (l6 ++ l7)).
      eapply on_then_done; [exact O15|]. eapply on_then_done; eauto.
    + injection H as <- <-. exists []. now apply on_done.
Qed.

(** ** One phase of a step: every agent in turn *)

Definition all_events (e : eco) (entered : nat -> list nat) (ns : list nat) : list (dict * nat) :=
  flat_map (fun n => match nth_error (e_agents e) n with Some a => events a (entered n) | None => [] end) ns.

Lemma fold_done S (P : settings -> nat -> list nat -> eco -> eco -> Prop) (f : eco * rng -> nat -> res (eco * rng)) :
  (forall ai l e e', P S ai l e e' -> Done S ai l e e') ->
  (forall ai e g e' g', Inv e -> f (e, g) ai = Ok (e', g') -> Inv e' /\ exists l, P S ai l e e') ->
  forall n k e g e' g', Inv e -> List.length (e_agents e) = (k + n)%nat ->
  foldM f (seq k n) (e, g) = Ok (e', g') ->
  Inv e' /\ Net e e' /\ List.length (e_agents e') = List.length (e_agents e) /\
  (forall ai, (ai < k)%nat -> nth_error (e_agents e') ai = nth_error (e_agents e) ai) /\
  exists entered, Ent S (all_events e entered (seq k n)) e e' /\
    forall ai a, (k <= ai)%nat -> nth_error (e_agents e) ai = Some a -> exists e1 e2 a',
      Net e e1 /\ nth_error (e_agents e1) ai = Some a /\ P S ai (entered ai) e1 e2 /\
      nth_error (e_agents e2) ai = Some a' /\ nth_error (e_agents e') ai = Some a'.
Proof.
  intros PD Hf n; induction n as [|n IH]; intros k e g e' g' I L H; cbn [seq foldM] in H.
  - injection H as <- <-. do 4 (split; [solve [auto]|]). exists (fun _ => []). split; [now apply ent_nil|].
    intros ai a Hk Ha. apply nth_error_lt in Ha. lia.
  - rstep H. destruct v as [e1 g1].
    destruct (nth_error_ex (e_agents e) k) as [a Ha]; [lia|].
    destruct (Hf _ _ _ _ _ I E) as (I1 & l & P1). pose proof (PD _ _ _ _ P1) as [M1 D1].
    destruct (D1 a Ha) as (a1 & Ha1 & At & En & J).
    destruct (IH (Datatypes.S k) e1 g1 e' g' I1) as (I2 & N2 & Ln & Lo & entered & E2 & Hi); auto.
    { rewrite (mv_len _ _ _ M1). lia. }
    pose proof (net_mv _ _ _ M1) as N1.
    split; [assumption|]. split; [eapply net_trans; eauto|]. split; [rewrite Ln; apply (mv_len _ _ _ M1)|].
    split; [intros ai Hai; rewrite Lo by lia; apply (mv_others _ _ _ M1); lia|].
    exists (fun m => if Nat.eqb m k then l else entered m). split.
    + unfold all_events. cbn [seq flat_map]. rewrite Ha, Nat.eqb_refl. eapply ent_app; [exact En|].
      erewrite flat_map_ext_in; [exact E2|]. intros m Hm. apply in_seq in Hm. cbv beta.
      rewrite <- (mv_others _ _ _ M1 m) by lia. destruct (Nat.eqb_spec m k) as [->|_]; [lia|reflexivity].
    + intros ai b Hai Hb. destruct (Nat.eqb_spec ai k) as [->|Ne].
      * assert (b = a) as -> by congruence. exists e, e1, a1. split; [apply net_refl|]. do 3 (split; [assumption|]).
        rewrite Lo by lia. exact Ha1.
      * rewrite <- (mv_others _ _ _ M1 ai Ne) in Hb. destruct (Hi ai b) as (x & y & a' & X1 & X2 & X3 & X4 & X5); [lia|exact Hb|].
        exists x, y, a'. split; [eapply net_trans; eauto|]. auto.
Qed.

Lemma tabs_still e e' : Still e e' -> tabs e' = tabs e.
Proof.
  intros [Sm _ _ _ T]. pose proof (s_cums _ _ Sm) as C. unfold tabs. clear Sm. revert C T.
  generalize (e_links e) as l. generalize (e_links e') as l'. induction l' as [|k' l' IH]; intros [|k l] C T; try discriminate; [reflexivity|].
  cbn in *. injection C as C1 C2. injection T as T1 T2. f_equal; [|now apply IH]. unfold ktab. congruence.
Qed.

Lemma evolve_agents_on S o e g e' g' : Inv e -> evolve_agents S o e g = Ok (e', g') ->
  Inv e' /\ Net e e' /\ List.length (e_agents e') = List.length (e_agents e) /\
  exists entered, Ent S (all_events e entered (seq 0 (List.length (e_agents e)))) e e' /\
    forall ai a, nth_error (e_agents e) ai = Some a -> exists e1 e2 a',
      Net e e1 /\ nth_error (e_agents e1) ai = Some a /\ On S ai (entered ai) e1 e2 /\
      nth_error (e_agents e2) ai = Some a' /\ nth_error (e_agents e') ai = Some a'.
Proof.
  intros I H. unfold evolve_agents in H. eapply (fold_done S On) in H; [|apply on_done| |exact I|reflexivity].
  - destruct H as (I2 & N & Ln & _ & entered & En & Hi). do 3 (split; [assumption|]). exists entered. split; [exact En|].
    intros ai a. apply Hi. lia.
  - clear. intros ai e g e' g' I H. cbv beta iota zeta in H.
    set (e2 := if (1 <? s_log_agent S)%Z then _ else e) in *.
    assert (X : Inv e2 /\ On S ai [] e e2).
    { unfold e2. destruct (1 <? s_log_agent S)%Z.
      - split; [eapply inv_same; [apply same_up_agent; reflexivity|exact I]|apply on_up_agent; reflexivity].
      - split; [exact I|apply on_refl]. }
    destruct X as [I2 O2]. clearbody e2. rstep H.
    assert (Y : e' = e2 \/ person_evolve S o (e_time e2) false ai e2 g = Ok (e', g')) by (destruct (a_location v); auto; injection H as <- _; auto).
    destruct Y as [->|Y]; [split; [exact I2|exists []; exact O2]|].
    split; [eapply inv_person_evolve; eauto|]. destruct (on_person_evolve _ _ _ _ _ _ _ _ _ I2 Y) as [l Ol].
    exists l. exact (on_trans _ _ [] l _ _ _ O2 Ol).
Qed.

Lemma finish_agents_done fuel S o e g e' g' : Inv e -> finish_agents fuel S o e g = Ok (e', g') ->
  Inv e' /\ Net e e' /\ List.length (e_agents e') = List.length (e_agents e) /\
  exists entered, Ent S (all_events e entered (seq 0 (List.length (e_agents e)))) e e' /\
    forall ai a, nth_error (e_agents e) ai = Some a -> exists e1 e2 a',
      Net e e1 /\ nth_error (e_agents e1) ai = Some a /\ Done S ai (entered ai) e1 e2 /\
      nth_error (e_agents e2) ai = Some a' /\ nth_error (e_agents e') ai = Some a'.
Proof.
  intros I H. unfold finish_agents in H. eapply (fold_done S Done) in H; [|auto| |exact I|reflexivity].
  - destruct H as (I2 & N & Ln & _ & entered & En & Hi). do 3 (split; [assumption|]). exists entered. split; [exact En|].
    intros ai a. apply Hi. lia.
  - clear. intros ai e g e' g' I H. cbv beta iota zeta in H. rstep H.
    assert (Y : e' = e \/ exists e2, finish_travel fuel S o (e_time e) ai e g = Ok (e2, g') /\
      e' = up_agent ai (up_a_timesteps_since_departure (fun z => z + 1)%Z) e2).
    { destruct (a_location v); [right; rstep H; destruct v0; injection H as <- <-; eauto..|left; injection H as <- _; auto]. }
    destruct Y as [->|(e2 & Y & ->)]; [split; [exact I|exists []; apply on_done, on_refl]|].
    split; [eapply inv_same; [apply same_up_agent; reflexivity|eapply inv_finish_travel; eauto]|].
    destruct (done_finish_travel _ _ _ _ _ _ _ _ _ I Y) as (l & M & D). exists l.
    split; [eapply mv_trans; [exact M|apply mv_up_agent]|]. intros a Ha. destruct (D a Ha) as (a' & A1 & A2 & A3 & A4).
    eexists. cbn [up_agent up_e_agents e_agents]. rewrite nth_upd_same, A1. split; [reflexivity|].
    split; [exact A2|]. split; [eapply ent_tabs; [exact A3|reflexivity]|exact A4].
Qed.

(** ** What events add up to *)

Definition lookup (t : table) (s : string) (v : pyval) : Z :=
  match dict_get s t with
  | Some c => match find (fun wn => key_eqb (fst wn) v) c with Some wn => snd wn | None => 0%Z end
  | None => 0%Z
  end.
Definition has (d : dict) (s : string) (v : pyval) : bool :=
  match dict_get s d with Some w => key_eqb w v | None => false end.

Lemma key_iff v w : key_eqb v w = true <->
  match v, w with
  | VStr s, VStr t => s = t
  | VStr _, _ | _, VStr _ => False
  | VList _, _ | _, VList _ => False
  | VInt a, VInt b => inject_Z a == inject_Z b
  | VInt a, VFloat b => inject_Z a == b
  | VFloat a, VInt b => a == inject_Z b
  | VFloat a, VFloat b => a == b
  end%Q.
Proof.
  destruct v, w; cbn [key_eqb]; try (split; [discriminate|contradiction]); unfold Qeqb; try apply Qeq_bool_iff.
  - rewrite Z.eqb_eq. unfold Qeq. cbn. lia.
  - apply String.eqb_eq.
Qed.
Lemma key_sym v w : key_eqb v w = key_eqb w v.
Proof.
  apply Bool.eq_iff_eq_true. rewrite !key_iff.
  destruct v, w; try tauto; split; intro; symmetry; assumption.
Qed.
Lemma key_trans u v w : key_eqb u v = true -> key_eqb v w = key_eqb u w.
Proof.
  intro H. apply Bool.eq_iff_eq_true. rewrite key_iff in H. rewrite !key_iff.
  destruct u, v; try contradiction; destruct w; try tauto; try (subst; tauto); rewrite H; tauto.
Qed.

Lemma find_count v w c : (forall l, v <> VList l) ->
  match find (fun wn => key_eqb (fst wn) w) (count_key v c) with Some wn => snd wn | None => 0%Z end =
  (match find (fun wn => key_eqb (fst wn) w) c with Some wn => snd wn | None => 0 end + (if key_eqb v w then 1 else 0))%Z.
Proof.
  intro NL. induction c as [|[x n] c IH]; cbn [count_key find fst snd].
  - destruct (key_eqb v w); reflexivity.
  - destruct (key_eqb v x) eqn:E; cbn [find fst snd].
    + rewrite (key_trans _ _ w E). destruct (key_eqb v w) eqn:F; cbn [snd]; lia.
    + destruct (key_eqb x w) eqn:F; cbn [snd]; [|exact IH].
      assert (key_eqb v w = false) as ->; [|lia].
      rewrite (key_sym v w). rewrite (key_trans x w v F). now rewrite key_sym.
Qed.

Lemma get_set {A} k k' (v : A) d : dict_get k (dict_set k' v d) = if String.eqb k k' then Some v else dict_get k d.
Proof.
  induction d as [|[x y] d IH]; cbn; [reflexivity|].
  destruct (String.eqb_spec k' x) as [->|N]; cbn.
  - destruct (String.eqb k x); reflexivity.
  - rewrite IH. destruct (String.eqb_spec k x) as [->|M]; [|reflexivity].
    destruct (String.eqb_spec x k') as [->|_]; [contradiction|reflexivity].
Qed.

Lemma lookup_count d : forall t t', NoDup (map fst d) -> count_attributes d t = Ok t' ->
  forall s v, lookup t' s v = (lookup t s v + (if has d s v then 1 else 0))%Z.
Proof.
  unfold count_attributes. induction d as [|[a w] d IH]; intros t t' ND H s v; cbn [foldM] in H.
  - injection H as <-. unfold has. cbn. lia.
  - cbn [map fst] in ND. apply NoDup_cons_iff in ND as [NI ND]. rstep H. rename v0 into t1.
    assert (X : (forall l, w <> VList l) /\ t1 = dict_set a (count_key w (match dict_get a t with Some c => c | None => [] end)) t).
    { cbn [fst snd] in E. destruct w; try discriminate; injection E as <-; split; auto; discriminate. }
    destruct X as [NL ->]. rewrite (IH _ _ ND H s v). unfold lookup at 1, has. rewrite get_set. cbn [dict_get].
    destruct (String.eqb_spec s a) as [->|N].
    + rewrite find_count by exact NL. unfold lookup.
      assert (dict_get a d = None) as ->.
      { clear -NI. induction d as [|[x y] d IH]; [reflexivity|]. cbn in *. destruct (String.eqb_spec a x) as [->|_]; [tauto|apply IH; tauto]. }
      destruct (dict_get a t) as [c|]; cbn [find]; lia.
    + reflexivity.
Qed.

Definition ev_count (P : dict -> bool) (ki : nat) (evs : list (dict * nat)) : Z :=
  Z.of_nat (List.length (filter (fun ev => (P (fst ev) && Nat.eqb (snd ev) ki)%bool) evs)).

Lemma enter_counts S evs : forall T T', foldM (enter1 S) evs T = Ok T' ->
  forall ki c t, nth_error T ki = Some (c, t) -> exists c' t', nth_error T' ki = Some (c', t') /\
    c' = (c + ev_count (fun _ => true) ki evs)%Z /\
    ((forall ev, In ev evs -> NoDup (map fst (fst ev))) ->
     forall s v, lookup t' s v = (lookup t s v + if (1 <? s_log_link S)%Z then ev_count (fun d => has d s v) ki evs else 0)%Z).
Proof.
  induction evs as [|[d kj] evs IH]; intros T T' H ki c t Hk; cbn [foldM] in H.
  - injection H as <-. exists c, t. split; [exact Hk|]. unfold ev_count; cbn. split; [lia|]. intros. destruct (1 <? s_log_link S)%Z; lia.
  - rstep H. rename v into T1. unfold enter1 in E. cbn [fst snd] in E. rstep E. destruct v as [c0 t0]. apply of_option_ok in E0.
    rstep E. destruct v as [c1 t1]. injection E as <-.
    assert (X : exists c2 t2, nth_error (upd kj (fun _ => (c1, t1)) T) ki = Some (c2, t2) /\
       c2 = (c + if Nat.eqb kj ki then 1 else 0)%Z /\
       (NoDup (map fst d) -> forall s v, lookup t2 s v = (lookup t s v + if (1 <? s_log_link S)%Z then (if has d s v && Nat.eqb kj ki then 1 else 0) else 0)%bool%Z)).
    { destruct (Nat.eqb_spec kj ki) as [->|N].
      - rewrite nth_upd_same, Hk. cbn [option_map]. rewrite Hk in E0. injection E0 as -> ->. exists c1, t1. split; [reflexivity|].
        unfold tab_inc in E1. cbn [fst snd] in E1. destruct (1 <? s_log_link S)%Z.
        + rstep E1. injection E1 as <- <-. split; [reflexivity|]. intros ND s v0. rewrite (lookup_count _ _ _ ND E).
          now rewrite Bool.andb_true_r.
        + injection E1 as <- <-. split; [reflexivity|]. intros _ s v. lia.
      - rewrite nth_upd_other by exact N. exists c, t. split; [exact Hk|]. split; [lia|]. intros _ s v.
        rewrite Bool.andb_false_r. destruct (1 <? s_log_link S)%Z; lia. }
    destruct X as (c2 & t2 & X1 & X2 & X3). destruct (IH _ _ H ki c2 t2 X1) as (c' & t' & Y1 & Y2 & Y3).
    exists c', t'. split; [exact Y1|]. split.
    + rewrite Y2, X2. unfold ev_count. cbn [filter fst snd andb]. destruct (Nat.eqb kj ki); cbn [List.length]; lia.
    + intros ND s v. rewrite Y3 by (intros ev Hev; apply ND; now right). rewrite X3 by (apply (ND (d, kj)); now left).
      unfold ev_count. cbn [filter fst snd]. destruct (1 <? s_log_link S)%Z; [|lia].
      destruct (has d s v && Nat.eqb kj ki)%bool; cbn [List.length]; lia.
Qed.

Lemma ev_count_app P ki l1 l2 : ev_count P ki (l1 ++ l2) = (ev_count P ki l1 + ev_count P ki l2)%Z.
Proof. unfold ev_count. rewrite filter_app, app_length. lia. Qed.
Lemma ev_count_events P ki a l : ev_count P ki (events a l) = if P (a_attributes a) then Z.of_nat (count_occ Nat.eq_dec l ki) else 0%Z.
Proof.
  unfold ev_count, events. induction l as [|x l IH]; [destruct (P _); reflexivity|]. cbn [map filter fst snd count_occ].
  destruct (P (a_attributes a)); cbn [andb] in *; [|exact IH].
  destruct (Nat.eqb_spec x ki) as [->|N]; destruct (Nat.eq_dec _ _); try contradiction; cbn [List.length]; lia.
Qed.

Lemma ev_count_all P ki e entered :
  ev_count P ki (all_events e entered (seq 0 (List.length (e_agents e)))) =
  traffic e (fun a => P (a_attributes a)) entered ki.
Proof.
  unfold all_events, traffic.
  assert (X : forall (ags : list agent) k, (forall n a, nth_error ags n = Some a -> nth_error (e_agents e) (k + n)%nat = Some a) ->
    ev_count P ki (flat_map (fun n => match nth_error (e_agents e) n with Some a => events a (entered n) | None => [] end) (seq k (List.length ags))) =
    sumZ (map (fun na => if P (a_attributes (snd na)) then Z.of_nat (count_occ Nat.eq_dec (entered (fst na)) ki) else 0%Z) (combine (seq k (List.length ags)) ags))).
  { induction ags as [|a ags IH]; intros k H; [reflexivity|]. cbn [List.length seq flat_map combine fst snd map sumZ].
    rewrite ev_count_app. rewrite <- (IH (Datatypes.S k)).
    - f_equal. rewrite <- (Nat.add_0_r k) at 1. rewrite (H 0%nat a eq_refl). apply ev_count_events.
    - intros n b Hn. rewrite Nat.add_succ_comm. exact (H (Datatypes.S n) b Hn). }
  apply X. auto.
Qed.

Lemma traffic_app e who l1 l2 ki :
  traffic e who (fun n => l1 n ++ l2 n) ki = (traffic e who l1 ki + traffic e who l2 ki)%Z.
Proof.
  unfold traffic. induction (combine _ _) as [|[n a] l IH]; [reflexivity|]. cbn [map sumZ fst snd]. rewrite IH.
  rewrite count_occ_app. destruct (who a); lia.
Qed.
Lemma traffic_attrs e e' P l ki : map a_attributes (e_agents e') = map a_attributes (e_agents e) ->
  traffic e' (fun a => P (a_attributes a)) l ki = traffic e (fun a => P (a_attributes a)) l ki.
Proof.
  intro H. unfold traffic. pose proof (map_eq_length _ _ _ _ H) as Ln. rewrite Ln. clear Ln. revert H.
  generalize (e_agents e) as b. generalize 0%nat as k. induction (e_agents e') as [|a as_ IH]; intros k [|b bs] H; try discriminate; [reflexivity|].
  cbn [map] in H. injection H as H1 H2. cbn [List.length seq combine map sumZ fst snd]. rewrite H1. f_equal. now apply IH.
Qed.

(** ** One step *)

Lemma nth_ext_map {A B} (f : A -> B) (l l' : list A) : List.length l' = List.length l ->
  (forall n a, nth_error l n = Some a -> exists a', nth_error l' n = Some a' /\ f a' = f a) -> map f l' = map f l.
Proof.
  revert l'. induction l as [|a l IH]; intros [|a' l'] L H; try discriminate; [reflexivity|].
  destruct (H 0%nat a eq_refl) as (x & X1 & X2). injection X1 as ->. cbn. f_equal; [exact X2|].
  apply IH; [now injection L|]. intros n b Hb. exact (H (Datatypes.S n) b Hb).
Qed.

Theorem evolve_traffic fuel S o e g e' g' : Inv e -> evolve fuel S o e g = Ok (e', g') ->
  exists entered,
    (forall n a, nth_error (e_agents e) n = Some a -> exists a' p', nth_error (e_agents e') n = Some a' /\
       journey e (a_location a) (entered n) p' /\
       (a_location a' = p' \/ exists i, p' = PLoc i /\ a_location a' = PGone i)) /\
    forall ki k, nth_error (e_links e) ki = Some k -> exists k', nth_error (e_links e') ki = Some k' /\
      k_cumNumAgents k' = (k_cumNumAgents k + traffic e (fun _ => true) entered ki)%Z /\
      (proper_attributes e -> forall s v, counted k' s v =
        (counted k s v + if (1 <? s_log_link S)%Z then traffic e (has_value s v) entered ki else 0)%Z).
Proof.
  intros I H. unfold evolve in H. rstep H. rename v into e0.
  pose proof (tabs_still _ _ (still_refresh _ _ _ E)) as T0.
  assert (N0 : Net e e0) by (unfold refresh_spawn_weights in E; rinv E; split; reflexivity).
  assert (A0 : e_agents e0 = e_agents e) by (unfold refresh_spawn_weights in E; rinv E; auto).
  assert (I0 : Inv e0) by (eapply inv_same; [eapply sl_same, still_refresh; eauto|assumption]).
  rstep H. destruct v as [e1 g1].
  pose proof (tabs_still _ _ (still_update_scores _ _ _ _ _ _ E0)) as T1.
  pose proof (sl_same _ _ (still_update_scores _ _ _ _ _ _ E0)) as Sm1.
  pose proof (sl_agents _ _ (still_update_scores _ _ _ _ _ _ E0)) as A1.
  assert (I1 : Inv e1) by (eapply inv_same; eauto).
  apply sc_update_scores in E0 as [C1 _]. pose proof (net_sc _ _ C1) as N1.
  rstep H. destruct v as [e2 g2].
  destruct (evolve_agents_on _ _ _ _ _ _ I1 E0) as (I2 & N2 & Ln2 & l2 & En2 & D2).
  rstep H. destruct v as [e3 g3].
  destruct (finish_agents_done _ _ _ _ _ _ _ I2 E1) as (I3 & N3 & Ln3 & l3 & En3 & D3).
  rstep H. rename v into e4. rstep H. rename v into e5.
  assert (A5 : e_agents e5 = e_agents e3 /\ e_links e5 = e_links e3).
  { assert (X : e_agents e4 = e_agents e3 /\ e_links e4 = e_links e3) by (unfold write_agents in E2; rinv E2; auto).
    destruct X as (<- & <-). unfold write_links in E3; rinv E3; auto. }
  destruct A5 as (A5 & K5).
  rstep H. rename v into e6. unfold update_recent in E4. rstep E4. rename v into ag. injection E4 as <-.
  cbv zeta in H. rstep H. destruct v as [e8 g4]. injection H as <- <-.
  pose proof (deactivate_spec _ _ _ _ _ E4) as (_ & _ & K8 & _ & _ & _ & D8).
  assert (K8' : e_links e8 = e_links e3).
  { rewrite K8, <- K5. unfold aggregate_arrivals. destruct (0 <? s_log_camp S)%Z; reflexivity. }
  assert (D8' : forall ai a, nth_error ag ai = Some a -> exists a', nth_error (e_agents e8) ai = Some a' /\
     (a_location a' = a_location a \/ exists i, a_location a = PLoc i /\ a_location a' = PGone i)).
  { intros ai a Ha. destruct (D8 ai a) as (a' & Ha' & X).
    - unfold aggregate_arrivals. destruct (0 <? s_log_camp S)%Z; exact Ha.
    - exists a'. split; [exact Ha'|]. destruct X as [->|(i & l & -> & L & _)]; [now left|right; eauto]. }
  clear D8 K8 E4. cbn [up_e_time e_agents e_links].
  assert (N02 : Net e e1) by (eapply net_trans; eauto).
  assert (N12 : Net e e2) by (eapply net_trans; eauto).
  assert (At : map a_attributes (e_agents e2) = map a_attributes (e_agents e)).
  { rewrite <- A0, <- A1. apply nth_ext_map; [exact Ln2|]. intros n a Ha.
    destruct (D2 n a Ha) as (x & y & a' & _ & X2 & [_ X3] & X4 & X5). exists a'. split; [exact X5|].
    destruct (X3 a X2) as (b & B1 & B2 & _). congruence. }
  assert (Ag2 : e_agents e1 = e_agents e) by congruence.
  exists (fun n => l2 n ++ l3 n). split.
  - intros n a Ha. rewrite <- Ag2 in Ha. destruct (D2 n a Ha) as (x & y & a2 & X1 & X2 & [_ X3] & X4 & X5).
    destruct (X3 a X2) as (b & B1 & _ & _ & B4). assert (b = a2) as -> by congruence.
    destruct (D3 n a2 X5) as (x3 & y3 & a3 & Y1 & Y2 & [_ Y3] & Y4 & Y5).
    destruct (Y3 a2 Y2) as (b & C2 & _ & _ & C4). assert (b = a3) as -> by congruence.
    rewrite <- A5 in Y5. destruct (mapM_nth _ _ _ n a3 E5 Y5) as (a6 & Ha6 & F6).
    assert (L6 : a_location a6 = a_location a3) by (rinv F6; reflexivity).
    destruct (D8' n a6 Ha6) as (a' & Ha' & F). exists a', (a_location a3). split; [exact Ha'|]. split.
    + eapply journey_net; [apply net_sym; eapply net_trans; [exact N02|exact X1]|].
      apply B4. eapply journey_net; [|exact C4].
      eapply net_trans; [apply net_sym; exact Y1|]. eapply net_trans; [apply net_sym; exact N2|exact X1].
    + rewrite <- L6. exact F.
  - intros ki k Hk.
    assert (EnA : Ent S (all_events e1 l2 (seq 0 (List.length (e_agents e1))) ++ all_events e2 l3 (seq 0 (List.length (e_agents e2)))) e e3).
    { eapply tabs_ent; [|eapply ent_app; [exact En2|exact En3]]. congruence. }
    assert (Tk : nth_error (tabs e) ki = Some (k_cumNumAgents k, k_cumByAttribute k)) by (unfold tabs; rewrite nth_error_map, Hk; reflexivity).
    destruct (enter_counts _ _ _ _ EnA ki _ _ Tk) as (c' & t' & Z1 & Z2 & Z3).
    unfold tabs in Z1. rewrite nth_error_map in Z1. destruct (nth_error (e_links e3) ki) as [k'|] eqn:Hk'; [|discriminate].
    cbn [option_map ktab] in Z1. injection Z1 as Z1 Z4. exists k'. rewrite K8'. split; [exact Hk'|].
    assert (Cnt : forall P, ev_count P ki (all_events e1 l2 (seq 0 (List.length (e_agents e1))) ++ all_events e2 l3 (seq 0 (List.length (e_agents e2)))) =
       traffic e (fun a => P (a_attributes a)) (fun n => l2 n ++ l3 n) ki).
    { intro P. rewrite ev_count_app, !ev_count_all, traffic_app. rewrite (traffic_attrs e e2) by exact At.
      rewrite (traffic_attrs e e1) by congruence. reflexivity. }
    split; [rewrite Z1, Z2, Cnt; reflexivity|]. intros PA s v.
    change (counted k' s v) with (lookup (k_cumByAttribute k') s v). change (counted k s v) with (lookup (k_cumByAttribute k) s v).
    rewrite Z4, Z3, Cnt; [reflexivity|]. intros ev Hev.
    assert (forall n a, nth_error (e_agents e2) n = Some a -> NoDup (map fst (a_attributes a))) as P2.
    { intros n a Hn. destruct (map_eq_nth a_attributes a_attributes (e_agents e) _ n a (eq_sym At) Hn) as (b & Hb & <-).
      apply PA. eapply nth_error_In; eauto. }
    apply in_app_iff in Hev as [Hev|Hev]; unfold all_events in Hev; apply in_flat_map in Hev as (n & _ & Hev);
      (destruct (nth_error _ n) as [a|] eqn:Hn in Hev; [|contradiction]);
      apply in_map_iff in Hev as (x & <- & _); cbn [fst].
    + apply PA. rewrite <- Ag2. eapply nth_error_In; eauto.
    + eapply P2; eauto.
Qed.
