(** * DecideProps: consequences of [Decide], and agents that cannot leave *)

From Coq Require Import Lia Lqa.
From Verif Require Import Base State Moving Crawling Scoring Diagnostics Flee DataTable
  Spawning InputGeography Api SpecAgents SpecHistory SpecRoutes SpecTravel SpecChoice SpecDecide
  Lemmas Inv InvMoves InvStruct Frames ScoreFrames Streams Travel RouteProofs Decide.
Local Open Scope Q_scope.

Lemma asked_inv o e g : asked o e g -> Inv e.
Proof.
  induction 1.
  - eapply reachable_inv; eauto.
  - eapply inv_same; [eapply sl_same, still_refresh; eauto|assumption].
  - eapply inv_same; [eapply sl_same, still_update_scores; eauto|assumption].
  - eapply inv_person_evolve; eauto.
  - eapply inv_handle_travel; [exact IHasked| |eassumption]. reflexivity.
  - eapply inv_same; [|exact IHasked]. apply same_up_agent. intro a. destruct (H0 a) as (A & B & C).
    unfold astruct. congruence.
  - eapply inv_same; [|exact IHasked]. apply same_up_loc; lsimpl.
  - assumption.
Qed.

Theorem never_leaves S o t f ai e g e' g' a i l mc : asked o e g -> 0 <= next_draw g ->
  person_evolve S o t f ai e g = Ok (e', g') ->
  nth_error (e_agents e) ai = Some a -> a_location a = PLoc i -> nth_error (e_locations e) i = Some l ->
  calculateMoveChance S o e a l f t = Ok mc -> mc <= 0 -> e' = e.
Proof.
  intros A U H Ha L Hl Mc Le. apply (decision S o t f ai e g e' g' a i l mc (asked_inv _ _ _ A)); auto. lra.
Qed.

Lemma last_map {A B} (f : A -> B) l d d' : l <> [] -> List.last (map f l) d' = f (List.last l d).
Proof.
  induction l as [|x l IH]; [congruence|]. intros _. destruct l as [|y l]; [reflexivity|].
  cbn [map List.last] in *. apply IH. discriminate.
Qed.

Theorem always_tries S o t f ai e g e' g' a i l mc : asked o e g -> next_draw g < 1 ->
  person_evolve S o t f ai e g = Ok (e', g') ->
  nth_error (e_agents e) ai = Some a -> a_location a = PLoc i -> nth_error (e_locations e) i = Some l ->
  calculateMoveChance S o e a l f t = Ok mc -> 1 <= mc ->
  a_route a = Some [] -> (0 < s_AwarenessLevel S)%Z -> s_FixedRoutes S = false ->
  exists a', nth_error (e_agents e') ai = Some a' /\
    ((exists ki k rest, open_link e i ki k /\ sets_out a a' ki rest) \/
     (l_links l = [] /\ stays_put a a') \/
     (exists stops d, path e i stops d /\ full_camp S e (name_at e (last_stop stops)) /\ stays_put a a')).
Proof.
  intros A U H Ha L Hl Mc Ge R Aw F. pose proof (asked_inv _ _ _ A) as I.
  destruct (decision S o t f ai e g e' g' a i l mc I H Ha L Hl Mc) as [_ D].
  destruct D as (plan & a' & PU & Ha' & C); [lra|]. exists a'. split; [assumption|].
  unfold plan_used in PU. rewrite R in PU. destruct PU as [g2 Sel].
  destruct plan as [[|r0 rest]|]; [right; left; exact C| |right; left; exact C].
  destruct (select_sound _ _ _ _ _ _ _ _ _ _ Hl Aw F Sel) as (stops & d & w & P & Er & _).
  destruct C as [[N _]|(n & dest & -> & LT & La & C)].
  - exfalso. destruct P as [i ki k O|i ki k st d0 O P]; cbn in Er; injection Er as -> _;
      (apply (N _ eq_refl); exists ki, k; auto).
  - destruct C as [[FC St]|(_ & ki & k & O & _ & So)]; [|left; eauto 8].
    right; right. exists stops, d. split; [assumption|]. split; [|assumption].
    assert (dest = name_at e (last_stop stops)) as <-; [|assumption].
    rewrite Er in La. unfold last_stop, stop_names in *.
    assert (Ln : stops <> []) by (destruct P; discriminate).
    rewrite (last_map RName _ ""%string) in La by (destruct stops; [congruence|discriminate]).
    rewrite (last_map (name_at e) _ 0%nat) in La by assumption. congruence.
Qed.

(** ** Full camps *)

Lemma plan_unique S o e a l t g p p' : plan_used S o e a l t g p -> plan_used S o e a l t g p' -> p = p'.
Proof.
  unfold plan_used. destruct (a_route a) as [[|]|]; [intros [g1 H1] [g2 H2]|intros -> ->|intros -> ->]; congruence.
Qed.

Theorem full_camp_stay S o t f ai e g e' g' a i l mc plan dest : asked o e g ->
  person_evolve S o t f ai e g = Ok (e', g') ->
  nth_error (e_agents e) ai = Some a -> a_location a = PLoc i -> nth_error (e_locations e) i = Some l ->
  calculateMoveChance S o e a l f t = Ok mc -> next_draw g < mc ->
  plan_used S o e a l t (snd (rng_u g)) (Some plan) -> plan <> [] ->
  List.last plan (RName "") = RName dest -> full_camp S e dest ->
  exists a', nth_error (e_agents e') ai = Some a' /\ stays_put a a'.
Proof.
  intros A H Ha L Hl Mc Lt PU Ne La FC. pose proof (asked_inv _ _ _ A) as I.
  destruct (decision S o t f ai e g e' g' a i l mc I H Ha L Hl Mc) as [_ D].
  destruct (D Lt) as (plan' & a' & PU' & Ha' & C). rewrite <- (plan_unique _ _ _ _ _ _ _ _ _ PU PU') in C.
  exists a'. split; [assumption|]. destruct plan as [|r0 rest]; [congruence|].
  destruct C as [[_ St]|(n & d' & -> & _ & La' & [[_ St]|[NF _]])]; [assumption..|].
  exfalso. apply NF. assert (d' = dest) as ->; [|assumption].
  clear -La La'. revert La La'. change (last (RName n :: rest) (RName "") = RName dest -> last (RName n :: rest) (RName n) = RName d' -> d' = dest).
  assert (X : forall (r : list rtok) x y z, last (x :: r) y = last (x :: r) z).
  { induction r as [|b r IH]; intros; [reflexivity|]. cbn [last]. apply (IH b). }
  rewrite (X rest (RName n) (RName "") (RName n)). congruence.
Qed.

Theorem departs_not_full S o t f ai e g e' g' a a' i l ki : asked o e g ->
  person_evolve S o t f ai e g = Ok (e', g') ->
  nth_error (e_agents e) ai = Some a -> a_location a = PLoc i -> nth_error (e_locations e) i = Some l ->
  nth_error (e_agents e') ai = Some a' -> a_location a' = PLink ki ->
  exists next rest dest, plan_used S o e a l t (snd (rng_u g)) (Some (next :: rest)) /\
    a_route a' = Some rest /\ List.last (next :: rest) next = RName dest /\ ~ full_camp S e dest.
Proof.
  intros A H Ha L Hl Ha' L'. pose proof (asked_inv _ _ _ A) as I.
  assert (Mc : exists mc, calculateMoveChance S o e a l f t = Ok mc).
  { pose proof (i_agents _ I a (nth_error_In _ _ Ha)) as [_ AO]. rewrite L in AO. destruct AO as [_ T].
    unfold person_evolve, agent_of, loc_of in H. rewrite Ha in H. cbn [of_option bind] in H.
    rewrite T, L, Hl in H. cbn [of_option bind] in H.
    destruct (calculateMoveChance S o e a l f t); [eauto|discriminate]. }
  destruct Mc as [mc Mc].
  destruct (decision S o t f ai e g e' g' a i l mc I H Ha L Hl Mc) as [D1 D2].
  destruct (Qlt_le_dec (next_draw g) mc) as [Lt|Le].
  - destruct (D2 Lt) as (plan & a2 & PU & Ha2 & C). assert (a2 = a') as -> by congruence.
    assert (NS : ~ stays_put a a') by (intros (X & _); congruence).
    destruct plan as [[|r0 rest]|]; [exfalso; apply NS, C| |exfalso; apply NS, C].
    destruct C as [[_ St]|(n & d' & -> & _ & La & [[_ St]|(NF & kj & k & _ & _ & So)])]; [contradiction..|].
    exists (RName n), rest, d'. destruct So as (_ & _ & R & _). auto.
  - rewrite (D1 Le) in Ha'. congruence.
Qed.

(** ** The default move chance *)

Theorem default_chance S o e a l f t : s_FloodRulesEnabled S = false ->
  s_MovechancePopScaleFactor S = 0 -> ~ s_MovechancePopBase S == 0 -> (forall x, o_pow o x 0 == 1) ->
  exists mc, calculateMoveChance S o e a l f t = Ok mc /\
    mc == if (l_town l && f)%bool then 1 else l_movechance l.
Proof.
  intros F P B O. unfold calculateMoveChance. destruct (l_town l && f)%bool; [exists 1; split; [reflexivity|lra]|].
  unfold fdiv. destruct (Qeqb (s_MovechancePopBase S) 0) eqn:E.
  { exfalso. apply B. now apply Qeqb_true. }
  cbn [bind]. unfold fpow. rewrite P, F. change (Qltb 0 0) with false. rewrite Bool.andb_false_r.
  change (is_int 0) with true. rewrite Bool.andb_false_r. cbn [bind]. eexists. split; [reflexivity|].
  rewrite O. lra.
Qed.

(** ** Whole days without a chance to leave *)

Definition mview (l : location) := (l_town l, l_pop l, l_capacity l, l_movechance l, l_attributes l).

Lemma chance_view S o e e' a a' l l' f t : mview l' = mview l -> e_dicts e' = e_dicts e ->
  a_attributes a' = a_attributes a ->
  calculateMoveChance S o e' a' l' f t = calculateMoveChance S o e a l f t.
Proof.
  intros M D A. unfold mview in M. injection M as M1 M2 M3 M4 M5.
  unfold calculateMoveChance, loc_attrs, dict_of, awareness_weight. rewrite M1, M2, M3, M4, M5, D, A. reflexivity.
Qed.

Lemma mv_view ai e e' i l : Mv ai e e' -> nth_error (e_locations e) i = Some l ->
  exists l', nth_error (e_locations e') i = Some l' /\ mview l' = mview l.
Proof.
  intros [_ M _ _ _] H. assert (X : nth_error (map lfix (e_locations e')) i = Some (lfix l)).
  { rewrite M, nth_error_map, H. reflexivity. }
  rewrite nth_error_map in X. destruct (nth_error (e_locations e') i) as [l'|]; [|discriminate].
  exists l'. split; [reflexivity|]. assert (Y : lfix l' = lfix l) by (cbn [option_map] in X; congruence). change (mview (lfix l') = mview (lfix l)). now rewrite Y.
Qed.

(** Agent [ai] is still in location [i] with the same attributes, and so are its chances. *)
Record Waits (S : settings) (o : oracle) (t : Z) (ai i : nat) (mc : Q) (pl : Z) (e : eco) : Prop := {
  w_inv : Inv e;
  w_time : e_time e = t;
  w_agent : exists a l, nth_error (e_agents e) ai = Some a /\ a_location a = PLoc i /\ a_places_travelled a = pl /\
    nth_error (e_locations e) i = Some l /\ calculateMoveChance S o e a l false t = Ok mc }.

Lemma mv_waits S o t ai i mc pl aj e e' : aj <> ai -> Inv e' -> Mv aj e e' -> Waits S o t ai i mc pl e -> Waits S o t ai i mc pl e'.
Proof.
  intros Ne I M [_ T (a & l & Ha & L & P & Hl & C)]. pose proof (mv_eco _ _ _ M) as Me.
  destruct (mv_view _ _ _ _ _ M Hl) as (l' & Hl' & V). split; [assumption|rewrite Me; exact T|].
  exists a, l'. split; [rewrite (mv_others _ _ _ M); auto|]. do 3 (split; [assumption|]).
  rewrite <- C. apply chance_view; auto. now rewrite Me.
Qed.

Lemma same_dicts_up i f e : e_dicts (up_agent i f e) = e_dicts e. Proof. reflexivity. Qed.

Lemma waits_note S o t ai i mc pl aj f e : (forall a, astruct (f a) = astruct a /\ a_places_travelled (f a) = a_places_travelled a /\
    a_attributes (f a) = a_attributes a) ->
  Waits S o t ai i mc pl e -> Waits S o t ai i mc pl (up_agent aj f e).
Proof.
  intros F [I T (a & l & Ha & L & P & Hl & C)].
  split; [eapply inv_same; [apply same_up_agent; apply F|exact I]|exact T|].
  destruct (Nat.eq_dec aj ai) as [->|Ne].
  - exists (f a), l. cbn [up_agent up_e_agents e_agents e_locations]. rewrite nth_upd_same, Ha. destruct (F a) as (A & B & D).
    unfold astruct in A. injection A as A1 A2 A3. split; [reflexivity|]. split; [congruence|]. split; [congruence|].
    split; [exact Hl|]. rewrite <- C. apply chance_view; auto.
  - exists a, l. cbn [up_agent up_e_agents e_agents e_locations]. rewrite nth_upd_other by congruence. auto.
Qed.

Lemma waits_evolve_agents S o t ai i mc pl e g e' g' : mc <= 0 -> rng_ok g ->
  evolve_agents S o e g = Ok (e', g') -> Waits S o t ai i mc pl e -> Waits S o t ai i mc pl e' /\ rng_ok g'.
Proof.
  intros Le G H W. unfold evolve_agents in H.
  eapply (foldM_inv (fun s => Waits S o t ai i mc pl (fst s) /\ rng_ok (snd s))) in H; [exact H| |auto].
  intros [e1 g1] aj [e3 g3] _ [W1 G1] Hs. cbn [fst snd] in *.
  set (e2 := if (1 <? s_log_agent S)%Z then _ else e1) in *.
  assert (W2 : Waits S o t ai i mc pl e2).
  { unfold e2. destruct (1 <? s_log_agent S)%Z; [|assumption]. apply waits_note; [auto|assumption]. }
  clearbody e2. rstep Hs. rename v into a. unfold agent_of in E. apply of_option_ok in E.
  assert (Z : (e3, g3) = (e2, g1) \/ person_evolve S o (e_time e2) false aj e2 g1 = Ok (e3, g3)).
  { destruct (a_location a); auto. left. injection Hs as <- <-. reflexivity. }
  destruct Z as [Z|Z]; [injection Z as -> ->; auto|].
  destruct (person_evolve_decided _ _ _ _ _ _ _ _ _ _ (w_inv _ _ _ _ _ _ _ _ W2) Z E) as (M & St & _).
  split; [|eapply streams_ok; eauto].
  destruct (Nat.eq_dec aj ai) as [->|Ne].
  - destruct W2 as [I T (b & l & Hb & L & P & Hl & C)]. rewrite T in Z.
    assert (e3 = e2) as ->; [|split; eauto 8].
    eapply (decision S o t false ai e2 g1 e3 g3 b i l mc I Z Hb L Hl C). unfold next_draw.
    destruct G1 as [G1 _]. destruct (G1 (g_i g1)). lra.
  - eapply mv_waits; eauto. eapply inv_person_evolve; [apply (w_inv _ _ _ _ _ _ _ _ W2)|eauto].
Qed.

Lemma waits_finish_agents fuel S o t ai i mc pl e g e' g' : rng_ok g ->
  finish_agents fuel S o e g = Ok (e', g') -> Waits S o t ai i mc pl e -> Waits S o t ai i mc pl e'.
Proof.
  intros G H W. unfold finish_agents in H.
  eapply (foldM_inv (fun s => Waits S o t ai i mc pl (fst s) /\ rng_ok (snd s))) in H; [apply H| |auto].
  intros [e1 g1] aj [e3 g3] _ [W1 G1] Hs. cbn [fst snd] in *.
  rstep Hs. rename v into a. unfold agent_of in E. apply of_option_ok in E.
  assert (Z : (e3, g3) = (e1, g1) \/ gone_of a = None /\ exists e2, finish_travel fuel S o (e_time e1) aj e1 g1 = Ok (e2, g3) /\
     e3 = up_agent aj (up_a_timesteps_since_departure (fun z => z + 1)%Z) e2).
  { unfold gone_of. destruct (a_location a); [right..|left]; [split; auto; rstep Hs; destruct v; rinv Hs; eauto..|injection Hs as <- <-; reflexivity]. }
  destruct Z as [Z|(Gn & e2 & Z & ->)]; [injection Z as -> ->; auto|].
  destruct (finish_travel_day _ _ _ _ _ _ _ _ _ _ (w_inv _ _ _ _ _ _ _ _ W1) G1 Z E Gn) as (M & St & _).
  split; [|eapply streams_ok; eauto]. apply waits_note; [auto|].
  destruct (Nat.eq_dec aj ai) as [->|Ne].
  - destruct W1 as [I T (b & l & Hb & L & P & Hl & C)].
    assert (e2 = e1) as ->; [|split; eauto 8].
    pose proof (i_agents _ I b (nth_error_In _ _ Hb)) as [_ AO]. rewrite L in AO. destruct AO as [_ Tr].
    destruct fuel; cbn [finish_travel] in Z; unfold agent_of in Z; rewrite Hb in Z; cbn [of_option bind] in Z;
      rewrite Tr in Z; cbn [negb] in Z; injection Z as <- _; reflexivity.
  - eapply mv_waits; eauto. eapply inv_finish_travel; [apply (w_inv _ _ _ _ _ _ _ _ W1)|eauto].
Qed.

Theorem never_leaves_day o fuel S e g e' g' ai a i l mc :
  reachable o e g -> rng_ok g -> evolve fuel S o e g = Ok (e', g') ->
  nth_error (e_agents e) ai = Some a -> a_location a = PLoc i -> nth_error (e_locations e) i = Some l ->
  calculateMoveChance S o e a l false (e_time e) = Ok mc -> mc <= 0 ->
  exists a', nth_error (e_agents e') ai = Some a' /\ (a_location a' = PLoc i \/ a_location a' = PGone i) /\
    a_places_travelled a' = a_places_travelled a.
Proof.
  intros R G H Ha L Hl C Le. pose proof (reachable_inv _ _ _ R) as I. unfold evolve in H. rstep H. rename v into e0.
  assert (W0 : Waits S o (e_time e) ai i mc (a_places_travelled a) e0).
  { split.
    - eapply inv_same; [eapply sl_same, still_refresh; eauto|assumption].
    - unfold refresh_spawn_weights in E; rinv E; reflexivity.
    - exists a, l. unfold refresh_spawn_weights in E; rinv E; auto 8. }
  rstep H. destruct v as [e1 g1].
  assert (W1 : Waits S o (e_time e) ai i mc (a_places_travelled a) e1 /\ rng_ok g1).
  { pose proof (still_update_scores _ _ _ _ _ _ E0) as SU. destruct W0 as [I0 T0 (b & l0 & Hb & Lb & Pb & Hl0 & C0)].
    apply sc_update_scores in E0 as [[SE SL] St]. split; [|eapply streams_ok; eauto]. split.
    - eapply inv_same; [exact (sl_same _ _ SU)|assumption].
    - rewrite SE. exact T0.
    - assert (X : nth_error (map lsc (e_locations e1)) i = Some (lsc l0)) by (rewrite SL, nth_error_map, Hl0; reflexivity).
      rewrite nth_error_map in X. destruct (nth_error (e_locations e1) i) as [l1|] eqn:Hl1; [|discriminate].
      assert (Y : lsc l1 = lsc l0) by (cbn [option_map] in X; congruence). exists b, l1. split; [rewrite SE; exact Hb|]. do 2 (split; [assumption|]). split; [reflexivity|].
      rewrite <- C0. apply chance_view; [|now rewrite SE|reflexivity].
      change (mview (lsc l1) = mview (lsc l0)). now rewrite Y. }
  destruct W1 as [W1 G1]. rstep H. destruct v as [e2 g2].
  destruct (waits_evolve_agents _ _ _ _ _ _ _ _ _ _ _ Le G1 E1 W1) as [W2 G2].
  rstep H. destruct v as [e3 g3]. pose proof (waits_finish_agents _ _ _ _ _ _ _ _ _ _ _ _ G2 E2 W2) as W3.
  rstep H. rename v into e4. rstep H. rename v into e5.
  assert (A5 : e_agents e5 = e_agents e3).
  { transitivity (e_agents e4); [unfold write_links in E4; rinv E4 | unfold write_agents in E3; rinv E3]; reflexivity. }
  rstep H. rename v into e6. unfold update_recent in E5. rstep E5. rename v into ag. rinv E5.
  rstep H. destruct v as [e8 g4]. rinv H.
  pose proof (deactivate_spec _ _ _ _ _ E5) as (_ & L8 & K8 & _ & _ & _ & D8).
  destruct W3 as [_ _ (b & lb & Hb & Lb & Pb & _)].
  rewrite <- A5 in Hb. destruct (mapM_nth _ _ _ _ _ E6 Hb) as (a6 & Ha6 & H6).
  rstep H6. rinv H6.
  assert (A7 : forall e, e_agents (aggregate_arrivals S e) = e_agents e).
  { intro. unfold aggregate_arrivals. destruct (0 <? s_log_camp S)%Z; reflexivity. }
  cbn [e_agents up_e_time] in *. edestruct (D8 ai) as (a' & Ha' & Da').
  { rewrite A7. exact Ha6. }
  exists a'. split; [exact Ha'|].
  destruct Da' as [->|(j & lj & -> & La & _)]; cbn in *; [auto|]. split; [right; congruence|assumption].
Qed.
