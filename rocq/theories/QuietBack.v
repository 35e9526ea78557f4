(** * QuietBack: when a simulation that works without logs also works with them *)

From Coq Require Import Lia Lqa.
From Verif Require Import Base State Moving Crawling Scoring Diagnostics Flee DataTable
  Spawning InputGeography Api SpecAgents SpecHistory SpecQuiet Lemmas Inv InvMoves InvStruct CoreProofs Frames ScoreFrames ReportProofs
  QuietReads QuietCalls QuietRun.
Local Open Scope list_scope.

(** ** What a move keeps *)

Definition visits_at (e : eco) (j : nat) : Prop :=
  forall a, nth_error (e_agents e) j = Some a -> forall k, In k (a_locations_visited a) -> (k < List.length (e_links e))%nat.
Record Keep (e e' : eco) : Prop := {
  kp_at : map a_attributes (e_agents e') = map a_attributes (e_agents e);
  kp_links : List.length (e_links e') = List.length (e_links e);
  kp_vis : forall j, visits_at e j -> visits_at e' j }.
Lemma keep_refl e : Keep e e. Proof. split; auto. Qed.
Lemma keep_trans a b c : Keep a b -> Keep b c -> Keep a c.
Proof. intros [A B C] [A' B' C']. split; auto; congruence. Qed.
Lemma keep_same e e' : e_agents e' = e_agents e -> List.length (e_links e') = List.length (e_links e) -> Keep e e'.
Proof. intros A B. split; [now rewrite A|exact B|]. unfold visits_at. now rewrite A, B. Qed.
Lemma upd_len {A} n (f : A -> A) l : List.length (upd n f l) = List.length l.
Proof. revert n. induction l as [|a l IH]; intros [|n]; cbn; auto. Qed.
Lemma keep_up_agent i f e : (forall a, a_attributes (f a) = a_attributes a) ->
  (forall a, nth_error (e_agents e) i = Some a -> forall k, In k (a_locations_visited (f a)) ->
     In k (a_locations_visited a) \/ (k < List.length (e_links e))%nat) -> Keep e (up_agent i f e).
Proof.
  intros A V. split; cbn [up_agent up_e_agents e_agents e_links]; [|reflexivity|].
  - rewrite (map_upd a_attributes i f (fun x => x)) by exact A. generalize (e_agents e) i. clear.
    induction l as [|a l IH]; intros [|i]; cbn; try reflexivity. f_equal. apply IH.
  - intros j VO b I k K. cbn [up_agent up_e_agents e_agents e_links] in *. destruct (Nat.eq_dec i j) as [->|N].
    + rewrite nth_upd_same in I. destruct (nth_error (e_agents e) j) as [a|] eqn:Ha; [|discriminate I]. injection I as <-.
      destruct (V a eq_refl k K) as [J|J]; [|exact J]. exact (VO a Ha k J).
    + rewrite nth_upd_other in I by auto. exact (VO b I k K).
Qed.
Lemma keep_up_agent' i f e : (forall a, a_attributes (f a) = a_attributes a) ->
  (forall a, a_locations_visited (f a) = a_locations_visited a) -> Keep e (up_agent i f e).
Proof. intros A V. apply keep_up_agent; [exact A|]. intros a _ k. rewrite V. auto. Qed.

Lemma keep_dec p e e' : dec_at p e = Ok e' -> Keep e e'.
Proof.
  destruct p; cbn [dec_at]; intro H; [| |discriminate]; apply bind_ok in H as (l & _ & H); injection H as <-.
  - now apply keep_same.
  - apply keep_same; [reflexivity|]. cbn. apply upd_len.
Qed.
Lemma keep_inc S at_ p e e' : inc_at S at_ p e = Ok e' -> Keep e e'.
Proof.
  destruct p; cbn [inc_at]; intro H; [| |discriminate]; apply bind_ok in H as (l & _ & H).
  - injection H as <-. now apply keep_same.
  - apply bind_ok in H as (l' & _ & H). injection H as <-. apply keep_same; [reflexivity|]. cbn. apply upd_len.
Qed.
Lemma keep_travel S ai p tr e e' : handle_travel S ai p tr e = Ok e' -> Keep e e'.
Proof.
  unfold handle_travel. intro H. apply bind_ok in H as (a & _ & H). apply bind_ok in H as (e1 & D & H). cbv zeta in H.
  apply bind_ok in H as (e3 & I & H). injection H as <-.
  eapply keep_trans; [exact (keep_dec _ _ _ D)|]. eapply keep_trans; [|apply keep_up_agent'; reflexivity].
  eapply keep_trans; [|exact (keep_inc _ _ _ _ _ I)]. now apply keep_up_agent'.
Qed.
Lemma keep_person S o t f ai e g e' g' : person_evolve S o t f ai e g = Ok (e', g') -> Keep e e'.
Proof.
  intros H. apply person_evolve_spec in H as [->|(a & i & l & rest & _ & _ & _ & _ & H)]; [apply keep_refl|].
  destruct H as [->|(ki & _ & H)]; [now apply keep_up_agent'|].
  eapply keep_trans; [|exact (keep_travel _ _ _ _ _ _ H)]. now apply keep_up_agent'.
Qed.
#[local] Hint Resolve keep_refl : core.

Lemma keep_finish fuel S o t ai e g e' g' : finish_travel fuel S o t ai e g = Ok (e', g') -> Keep e e'.
Proof.
  revert e g; induction fuel as [|fuel IH]; intros e g H; cbn [finish_travel] in H;
    unfold agent_of in H; rstep H; apply of_option_ok in E; (rstep H; [rinv H; auto|]);
    [discriminate|].
  rstep H; try discriminate. rstep H. rstep H. destruct v1 as [speed g1]. cbv zeta in H.
  match type of H with context [up_agent ai ?f e] => assert (S1 : Keep e (up_agent ai f e)) by now apply keep_up_agent' end.
  match type of S1 with Keep e ?x => set (e1 := x) in * end.
  rstep H; [|rinv H; assumption].
  match type of H with context [up_agent ai ?f e1] => assert (S2 : Keep e (up_agent ai f e1)) by
    (eapply keep_trans; [exact S1|]; apply keep_up_agent'; intro x; destruct (0 <? s_log_agent S)%Z; reflexivity) end.
  match type of S2 with Keep e ?x => set (e2 := x) in * end.
  rstep H.
  - rstep H. rinv H. eapply keep_trans; [exact S2|eapply keep_travel; eassumption].
  - rstep H.
    assert (I3 : Keep e v1).
    { eapply keep_trans; [|eapply keep_travel; eassumption]. eapply keep_trans; [exact S2|].
      match goal with |- context [if ?b then _ else _] => destruct b end; [|apply keep_refl].
      apply keep_up_agent; [reflexivity|]. intros b _ j J. cbn in J. apply in_app_iff in J as [J|[<-|[]]]; [now left|right].
      rewrite (kp_links _ _ S2). match goal with X : link_of e _ = Ok _ |- _ => unfold link_of in X; apply of_option_ok in X end.
      apply nth_error_Some. congruence. }
    rstep H.
    match type of H with context [if ?b then up_loc ?i ?f v1 else v1] =>
      assert (I4 : Keep e (if b then up_loc i f v1 else v1)) by
        (destruct b; [eapply keep_trans; [exact I3|now apply keep_same]|exact I3]) end.
    match type of H with (if ?b then _ else _) = _ => destruct b end.
    + rstep H. rstep H. destruct v4 as [e6 g2]. eapply keep_trans; [|eapply IH; exact H].
      eapply keep_trans; [exact I4|]. eapply keep_person; eassumption.
    + rinv H. exact I4.
Qed.

(** ** Moving *)

Definition calm (S : settings) (e : eco) : Prop :=
  (1 < s_log_link S)%Z -> forall a, In a (e_agents e) -> countable (a_attributes a).
Lemma calm_keep S e e' : Keep e e' -> calm S e -> calm S e'.
Proof.
  intros [A _ _] C L b I. assert (J : In (a_attributes b) (map a_attributes (e_agents e))) by (rewrite <- A; now apply in_map).
  apply in_map_iff in J as (a & <- & J). exact (C L a J).
Qed.

Lemma count_ok d : countable d -> forall t, exists t', count_attributes d t = Ok t'.
Proof.
  unfold count_attributes. induction d as [|[k v] d IH]; intros C t; [now exists t|]. cbn [foldM fst snd].
  destruct v; cbn [bind]; try (apply IH; intros k1 l1 I; exact (C k1 l1 (or_intror I))).
  exfalso. exact (C _ _ (or_introl eq_refl)).
Qed.

Lemma t_link_inc S par at_ k : ((1 < s_log_link S)%Z -> countable at_) ->
  link_inc (off S) par at_ (hk k) = rmap hk (link_inc S par at_ k).
Proof.
  intro C. unfold link_inc. cbv zeta. change (1 <? s_log_link (off S))%Z with false. cbn iota.
  destruct (1 <? s_log_link S)%Z eqn:L.
  - apply Z.ltb_lt in L. destruct (count_ok _ (C L) (k_cumByAttribute (if par then up_k_numAgentsOnRank (fun z => z + 1)%Z
      (up_k_cumNumAgents (fun z => z + 1)%Z (up_k_numAgents (fun z => z + 1)%Z k)) else
      (up_k_cumNumAgents (fun z => z + 1)%Z (up_k_numAgents (fun z => z + 1)%Z k))))) as (t & ->).
    destruct par; reflexivity.
  - destruct par; reflexivity.
Qed.

Lemma t_inc S at_ p e : ((1 < s_log_link S)%Z -> countable at_) ->
  inc_at (off S) at_ p (hide e) = rmap hide (inc_at S at_ p e).
Proof.
  intro C. destruct p as [i|k|i]; cbn [inc_at]; [| |reflexivity].
  - readl. intros l _. cbn [rmap]. f_equal. symmetry. apply h_up_loc. intro. change (e_par (hide e)) with (e_par e). destruct (e_par e); reflexivity.
  - readl. intros l _. change (e_par (hide e)) with (e_par e). rewrite t_link_inc by exact C. rewrite bind_rmap. into. intros l' _.
    cbn [rmap]. f_equal. symmetry. now apply h_up_link.
Qed.

Lemma t_travel S ai p tr e : calm S e -> handle_travel (off S) ai p tr (hide e) = rmap hide (handle_travel S ai p tr e).
Proof.
  intro C. unfold handle_travel. readl. intros a Ha. change (a_location (ha a)) with (a_location a). change (a_attributes (ha a)) with (a_attributes a).
  rewrite h_dec, bind_rmap. into. intros e1 _. cbv zeta.
  rewrite <- (h_up_agent ai (up_a_location (fun _ => p)) (up_a_location (fun _ => p)) e1) by reflexivity.
  rewrite t_inc; [|intro L; apply (C L); unfold agent_of in Ha; apply of_option_ok in Ha; exact (nth_error_In _ _ Ha)].
  rewrite bind_rmap. into. intros e3 _. cbn [rmap]. f_equal. symmetry. now apply h_up_agent.
Qed.

Lemma t_person S o t f ai e g : calm S e -> person_evolve (off S) o t f ai (hide e) g = rmap hp (person_evolve S o t f ai e g).
Proof.
  intro C. unfold person_evolve. readl. intros a _. change (a_travelling (ha a)) with (a_travelling a). destruct (a_travelling a); [reflexivity|].
  change (a_location (ha a)) with (a_location a). destruct (a_location a) as [i|k|i]; try reflexivity.
  readl. intros l _. rewrite h_chance. into. intros mc _. destruct (rng_u g) as [u g1]. destruct (Qltb u mc); [|reflexivity].
  change (a_route (ha a)) with (a_route a). rewrite h_select. into. intros [r g2] _. rewrite h_next.
  change (l_links (hl l)) with (l_links l). into. intros [d rest] _. cbv zeta.
  rewrite <- (h_up_agent ai (up_a_route (fun _ => Some rest)) (up_a_route (fun _ => Some rest)) e) by reflexivity.
  destruct d as [ki|]; [|reflexivity]. rewrite t_travel.
  - rewrite bind_rmap. into. reflexivity.
  - eapply calm_keep; [|exact C]. now apply keep_up_agent'.
Qed.

Lemma t_finish fuel S o t ai : forall e g, calm S e ->
  finish_travel fuel (off S) o t ai (hide e) g = rmap hp (finish_travel fuel S o t ai e g).
Proof.
  induction fuel as [|fuel IH]; intros e g C; cbn [finish_travel]; readl; intros a _; change (a_travelling (ha a)) with (a_travelling a);
    (destruct (a_travelling a); cbn [negb]; [|reflexivity]); [reflexivity|].
  change (a_location (ha a)) with (a_location a). destruct (a_location a) as [i|ki|i]; try reflexivity.
  readl. intros k _. rewrite h_speed. into. intros [sp g1] _. cbv zeta.
  change (a_distance_travelled_on_link (ha a)) with (a_distance_travelled_on_link a).
  change (a_distance_moved_this_timestep (ha a)) with (a_distance_moved_this_timestep a).
  change (k_distance (hk k)) with (k_distance k). change (k_closed (hk k)) with (k_closed k).
  change (k_startpoint (hk k)) with (k_startpoint k). change (k_endpoint (hk k)) with (k_endpoint k).
  set (onl := (a_distance_travelled_on_link a + sp)%Q). set (mv := (a_distance_moved_this_timestep a + sp)%Q). clearbody onl mv.
  match goal with |- context [up_agent ai ?f (hide e)] => rewrite <- (h_up_agent ai f f e) by reflexivity end.
  set (e1 := up_agent ai _ e). assert (C1 : calm S e1) by (eapply calm_keep; [|exact C]; now apply keep_up_agent'). clearbody e1.
  change (0 <? s_log_agent (off S))%Z with false. change (1 <? s_log_agent (off S))%Z with false.
  change (0 <? s_log_camp (off S))%Z with false. rewrite andb_false_r. cbn [andb]. cbn iota.
  destruct (Qltb (k_distance k) onl); [|reflexivity].
  match goal with |- context [up_agent ai ?f (hide e1)] =>
    rewrite <- (h_up_agent ai (fun a => up_a_places_travelled (fun z => z + 1)%Z (up_a_distance_moved_this_timestep (fun _ => (mv + (k_distance k - onl))%Q)
       (if (0 <? s_log_agent S)%Z then up_a_distance_travelled (fun q => (q + k_distance k)%Q) a else a))) f e1)
      by (intro x; destruct (0 <? s_log_agent S)%Z; reflexivity) end.
  set (e2 := up_agent ai _ e1).
  assert (C2 : calm S e2) by (eapply calm_keep; [|exact C1]; apply keep_up_agent'; intro x; destruct (0 <? s_log_agent S)%Z; reflexivity).
  clearbody e2. destruct (k_closed k).
  - rewrite t_travel by exact C2. rewrite bind_rmap. into. reflexivity.
  - assert (HE : forall b : bool, hide (if b then up_agent ai (up_a_locations_visited (fun l => l ++ [ki])) e2 else e2) = hide e2).
    { intros []; [|reflexivity]. rewrite (h_up_agent ai (up_a_locations_visited (fun l => l ++ [ki])) (fun x => x)) by reflexivity.
      unfold up_agent. destruct (hide e2) as [? ? ? ? ag]. unfold up_e_agents. ecosimpl. f_equal.
      clear. revert ai. induction ag as [|x ag IH]; intros [|ai]; cbn; try reflexivity. f_equal. apply IH. }
    set (e3 := if (_ && (1 <? s_log_agent S)%Z)%bool then _ else e2). assert (E3 : hide e3 = hide e2) by apply HE.
    assert (C3 : calm S e3).
    { intros L b I. unfold e3 in I. destruct (_ && _)%bool; [|exact (C2 L b I)]. cbn [up_agent up_e_agents e_agents] in I.
      apply In_upd in I as [I|(b0 & I & ->)]; [exact (C2 L b I)|exact (C2 L b0 (nth_error_In _ _ I))]. }
    clearbody e3. rewrite <- E3. rewrite t_travel by exact C3. rewrite bind_rmap. into. intros e4 T4.
    assert (C4 : calm S e4) by exact (calm_keep _ _ _ (keep_travel _ _ _ _ _ _ T4) C3).
    readl. intros ep _.
    match goal with |- context [if ((0 <? s_log_camp S)%Z && l_camp ep)%bool then ?x else e4] => set (e5 := if ((0 <? s_log_camp S)%Z && l_camp ep)%bool then x else e4) end.
    assert (E5 : hide e5 = hide e4).
    { unfold e5. destruct (_ && _)%bool; [|reflexivity].
      rewrite (h_up_loc (k_endpoint k) (up_l_incoming_journey_lengths (fun l => l ++ [a_timesteps_since_departure a])) (fun x => x)) by reflexivity.
      unfold up_loc. destruct (hide e4) as [ls]. unfold up_e_locations. ecosimpl. f_equal. generalize (k_endpoint k) as n.
      clear. induction ls as [|x ls IH]; intros [|n]; cbn; try reflexivity. f_equal. apply IH. }
    assert (C5 : calm S e5) by (unfold e5; destruct (_ && _)%bool; exact C4).
    clearbody e5. rewrite <- E5. destruct (Qltb _ sp); [|reflexivity].
    change (s_AvoidShortStints (off S)) with (s_AvoidShortStints S). change (s_MaxMoveSpeed (off S)) with (s_MaxMoveSpeed S).
    change (a_recent_travel_distance (ha a)) with (a_recent_travel_distance a). into. intros ra _.
    rewrite t_person by exact C5. rewrite bind_rmap. into. intros [e6 g2] P6. apply IH.
    exact (calm_keep _ _ _ (keep_person _ _ _ _ _ _ _ _ _ P6) C5).
Qed.

(** ** A day *)

Lemma foldM_map_inv {X A B} (P : A -> Prop) (h : A -> B) (f : A -> X -> res A) (f' : B -> X -> res B) l :
  (forall a x, P a -> f' (h a) x = rmap h (f a x)) -> (forall a x, P a -> forall b, f a x = Ok b -> P b) ->
  forall a, P a -> foldM f' l (h a) = rmap h (foldM f l a).
Proof.
  intros H K. induction l as [|x l IH]; intros a Pa; [reflexivity|]. cbn [foldM]. rewrite H by exact Pa. rewrite bind_rmap, rmap_bind.
  apply bind_ext. intros b E. apply IH. exact (K _ _ Pa _ E).
Qed.

Lemma calm_visited S ai e : calm S e -> calm S (up_agent ai (up_a_locations_visited (fun _ => [])) e).
Proof. intro C. eapply calm_keep; [|exact C]. apply keep_up_agent; [reflexivity|]. intros a _ k K. destruct K. Qed.

Lemma t_agents S o e g : calm S e -> evolve_agents (off S) o (hide e) g = rmap hp (evolve_agents S o e g).
Proof.
  intro C. unfold evolve_agents. rewrite len_agents. change (hide e, g) with (hp (e, g)).
  apply (foldM_map_inv (fun st => calm S (fst st))); [clear e g C; intros [e1 g1] ai C; cbn [fst] in C..|exact C].
  - unfold hp at 1. cbn [fst snd]. cbv zeta. change (1 <? s_log_agent (off S))%Z with false. cbn iota.
    set (e2 := if (1 <? s_log_agent S)%Z then _ else e1). assert (E : hide e2 = hide e1) by (unfold e2; destruct (_ <? _)%Z; [apply hide_visited|reflexivity]).
    assert (C2 : calm S e2) by (unfold e2; destruct (_ <? _)%Z; [now apply calm_visited|exact C]).
    clearbody e2. rewrite <- E. readl. intros a _. change (a_location (ha a)) with (a_location a).
    destruct (a_location a); try (now apply t_person). reflexivity.
  - cbv zeta. intros [e' g'] H. set (e2 := if (1 <? s_log_agent S)%Z then _ else e1) in *.
    assert (C2 : calm S e2) by (unfold e2; destruct (_ <? _)%Z; [now apply calm_visited|exact C]). clearbody e2. cbn [fst].
    apply bind_ok in H as (a & _ & H). destruct (a_location a);
      [exact (calm_keep _ _ _ (keep_person _ _ _ _ _ _ _ _ _ H) C2)..|injection H as <- <-; exact C2].
Qed.

Lemma keep_finishes fuel S o e g e' g' : finish_agents fuel S o e g = Ok (e', g') -> Keep e e'.
Proof.
  unfold finish_agents. intro H. eapply (foldM_rel (fun s s' => Keep (fst s) (fst s'))) in H; [exact H|auto|eauto using keep_trans|].
  intros [e1 g1] ai [e1' g1'] _ H1. clear H. rename H1 into H. cbn [fst]. apply bind_ok in H as (a & _ & H).
  destruct (a_location a); [..|injection H as <- <-; apply keep_refl]; apply bind_ok in H as ([e2 g2] & F & H); injection H as <- <-;
    (eapply keep_trans; [exact (keep_finish _ _ _ _ _ _ _ _ _ F)|now apply keep_up_agent']).
Qed.
Lemma t_finishes fuel S o e g : calm S e -> finish_agents fuel (off S) o (hide e) g = rmap hp (finish_agents fuel S o e g).
Proof.
  intro C. unfold finish_agents. rewrite len_agents. change (hide e, g) with (hp (e, g)).
  apply (foldM_map_inv (fun st => calm S (fst st))); [clear e g C; intros [e1 g1] ai C; cbn [fst] in C..|exact C].
  - unfold hp at 1. cbn [fst snd]. readl. intros a _. change (a_location (ha a)) with (a_location a). change (e_time (hide e1)) with (e_time e1).
    rewrite t_finish by exact C.
    assert (K : ('(e2, g2) <- rmap hp (finish_travel fuel S o (e_time e1) ai e1 g1) ;; Ok (up_agent ai (up_a_timesteps_since_departure (fun z => z + 1)%Z) e2, g2)) =
      rmap hp ('(e2, g2) <- finish_travel fuel S o (e_time e1) ai e1 g1 ;; Ok (up_agent ai (up_a_timesteps_since_departure (fun z => z + 1)%Z) e2, g2))).
    { rewrite bind_rmap. into. intros [e2 g2] _. cbn [rmap]. unfold hp. cbn [fst snd]. do 2 f_equal. symmetry. now apply h_up_agent. }
    destruct (a_location a); [exact K|exact K|reflexivity].
  - intros [e' g'] H. cbn [fst]. apply bind_ok in H as (a & _ & H).
    destruct (a_location a); [..|injection H as <- <-; exact C]; apply bind_ok in H as ([e2 g2] & F & H); injection H as <- <-;
      (eapply calm_keep; [now apply keep_up_agent'|]; exact (calm_keep _ _ _ (keep_finish _ _ _ _ _ _ _ _ _ F) C)).
Qed.

(** ** The logs of a day *)

Lemma foldM_seq {A} (P : nat -> A -> Prop) (f : A -> nat -> res A) n :
  (forall i s s', P i s -> f s i = Ok s' -> P (Datatypes.S i) s') ->
  forall k s s', P k s -> foldM f (seq k n) s = Ok s' -> P (k + n)%nat s'.
Proof.
  intro H. induction n as [|n IH]; intros k s s' P0 F; cbn [seq foldM] in F.
  - injection F as <-. now rewrite Nat.add_0_r.
  - apply bind_ok in F as (s1 & F1 & F). replace (k + Datatypes.S n)%nat with (Datatypes.S k + n)%nat by lia.
    eapply IH; [|exact F]. eapply H; eauto.
Qed.

Lemma keep_agents S o e g e' g' : evolve_agents S o e g = Ok (e', g') ->
  Keep e e' /\ ((1 < s_log_agent S)%Z -> forall j, visits_at e' j).
Proof.
  unfold evolve_agents. intro H.
  eapply (foldM_seq (fun n s => Keep e (fst s) /\ ((1 < s_log_agent S)%Z -> forall j, (j < n)%nat -> visits_at (fst s) j))) in H.
  - destruct H as [K V]. cbn [fst Nat.add] in *. split; [exact K|]. intros L j a Ha. refine (V L j _ a Ha).
    destruct K as [A _ _]. apply (f_equal (@List.length _)) in A. rewrite !map_length in A.
    rewrite <- A. apply nth_error_Some. congruence.
  - clear H. intros i [e1 g1] [e2 g2] [K V] H. cbn [fst] in *. cbv zeta in H.
    set (e1' := if (1 <? s_log_agent S)%Z then _ else e1) in H.
    assert (K1 : Keep e1 e1' /\ ((1 < s_log_agent S)%Z -> visits_at e1' i)).
    { unfold e1'. destruct (1 <? s_log_agent S)%Z eqn:L; split.
      - apply keep_up_agent; [reflexivity|]. intros a _ k J. destruct J.
      - intros _ a Ha k J. cbn [up_agent up_e_agents e_agents] in Ha. rewrite nth_upd_same in Ha.
        destruct (nth_error (e_agents e1) i); [|discriminate Ha]. injection Ha as <-. destruct J.
      - apply keep_refl.
      - apply Z.ltb_ge in L. lia. }
    destruct K1 as [K1 V1]. clearbody e1'. apply bind_ok in H as (a & _ & H).
    assert (K2 : Keep e1' e2) by (destruct (a_location a); [exact (keep_person _ _ _ _ _ _ _ _ _ H)..|injection H as <- <-; apply keep_refl]).
    split; [eapply keep_trans; [exact K|]; eapply keep_trans; eassumption|]. intros L j J.
    apply (kp_vis _ _ K2). destruct (Nat.eq_dec j i) as [->|N]; [now apply V1|]. apply (kp_vis _ _ K1), V; [exact L|lia].
  - cbn [fst]. split; [apply keep_refl|]. intros _ j J. lia.
Qed.

Lemma loc_ok_of e i : (i < List.length (e_locations e))%nat -> exists l, loc_of e i = Ok l.
Proof. intro H. unfold loc_of. apply nth_error_Some in H. destruct (nth_error (e_locations e) i); [eexists; reflexivity|congruence]. Qed.
Lemma link_ok_of e i : (i < List.length (e_links e))%nat -> exists l, link_of e i = Ok l /\ nth_error (e_links e) i = Some l.
Proof. intro H. unfold link_of. apply nth_error_Some in H. destruct (nth_error (e_links e) i); [eexists; split; reflexivity|congruence]. Qed.

Lemma named_place e k ki : Inv e -> nth_error (e_links e) ki = Some k -> exists n xy, link_name e k = Ok n /\ link_xy e k = Ok xy.
Proof.
  intros I K. destruct (st_link _ (i_struct _ I) ki k K) as (A & B & _). unfold link_name, link_xy.
  destruct (loc_ok_of _ _ A) as (s & ->). destruct (loc_ok_of _ _ B) as (t & ->). cbn [bind]. eauto.
Qed.

Lemma row_ok e t hop n a nm xy : Inv e -> In a (e_agents e) -> exists r, mk_row e t hop n a nm xy = Ok r.
Proof.
  intros I J. destruct (i_agents _ I a J) as [A _]. unfold mk_row. destruct (loc_ok_of _ _ A) as (h & ->). cbn [bind]. eauto.
Qed.

Lemma hops_ok S e t n a : Inv e -> In a (e_agents e) -> is_region S = false ->
  forall ks hop, (forall k, In k ks -> (k < List.length (e_links e))%nat) -> exists rs, hop_rows S e t n a hop ks = Ok rs.
Proof.
  intros I J R. induction ks as [|k ks IH]; intros hop V; [now exists []|]. cbn [hop_rows]. rewrite R.
  destruct (link_ok_of e k (V k (or_introl eq_refl))) as (x & -> & X). cbn [bind].
  destruct (named_place e x k I X) as (nm & xy & -> & ->). cbn [bind].
  destruct (row_ok e t (if (2 <? s_log_agent S)%Z then hop else 0%Z) n a nm xy I J) as (r & ->). cbn [bind].
  destruct (IH (hop + 1)%Z (fun k K => V k (or_intror K))) as (rs & ->). cbn [bind]. eauto.
Qed.

Lemma written S e : Inv e -> (s_granularity S <> "region")%string -> (e_time e = 0%Z -> e_agents e <> []) ->
  ((1 < s_log_agent S)%Z -> forall j, visits_at e j) -> exists e', write_agents S e = Ok e'.
Proof.
  intros I R T V. unfold write_agents.
  assert (RG : is_region S = false) by (unfold is_region; now apply String.eqb_neq).
  assert (L : forall l n, (forall a, In a l -> In a (e_agents e)) -> exists rs, all_agent_rows S e (e_time e) n l = Ok rs).
  { induction l as [|a l IH]; intros n J; [now exists []|]. cbn [all_agent_rows].
    assert (IA : In a (e_agents e)) by (apply J; now left).
    assert (A : exists r, agent_rows S e (e_time e) n a = Ok r).
    { unfold agent_rows. destruct (i_agents _ I a IA) as [_ P]. destruct (a_location a) as [i|k|i]; cbn [place_of].
      - destruct P as [P _]. destruct (loc_ok_of _ _ P) as (x & ->). cbn [bind]. rewrite RG.
        destruct (row_ok e (e_time e) 0 n a (lname x) (l_x x, l_y x) I IA) as (r & ->). cbn [bind].
        destruct (1 <? s_log_agent S)%Z eqn:LG; [|cbn [bind]; eauto]. apply Z.ltb_lt in LG.
        destruct (hops_ok S e (e_time e) n a I IA RG (a_locations_visited a) 1%Z) as (rs & ->); [|cbn [bind]; eauto].
        apply In_nth_error in IA as (j & Hj). exact (V LG j a Hj).
      - destruct P as [P _]. destruct (link_ok_of _ _ P) as (x & -> & X). cbn [bind].
        destruct (named_place e x k I X) as (nm & xy & -> & ->). cbn [bind]. rewrite RG.
        destruct (row_ok e (e_time e) 0 n a nm xy I IA) as (r & ->). cbn [bind].
        destruct (1 <? s_log_agent S)%Z eqn:LG; [|cbn [bind]; eauto]. apply Z.ltb_lt in LG.
        destruct (hops_ok S e (e_time e) n a I IA RG (a_locations_visited a) 1%Z) as (rs & ->); [|cbn [bind]; eauto].
        apply In_nth_error in IA as (j & Hj). exact (V LG j a Hj).
      - cbn [bind]. eauto. }
    destruct A as (r & ->). cbn [bind]. destruct (IH (Datatypes.S n)) as (rs & ->); [intros b B; apply J; now right|]. cbn [bind]. eauto. }
  destruct (e_time e =? 0)%Z eqn:T0.
  - apply Z.eqb_eq in T0. specialize (T T0). destruct (e_agents e) as [|a0 ags] eqn:EA; [congruence|]. cbn [bind].
    destruct (L (a0 :: ags) 0%nat) as (rs & ->); [auto|]. cbn [bind]. eauto.
  - cbn [bind]. destruct (L (e_agents e) 0%nat) as (rs & ->); [auto|]. cbn [bind]. eauto.
Qed.

Lemma roads_written S e : Inv e -> exists e', write_links S e = Ok e'.
Proof.
  intro I. unfold write_links.
  assert (L : forall ks, (forall k, In k ks -> In k (flat_map l_links (e_locations e))) -> exists rs, mapM (link_rows S e (e_time e)) ks = Ok rs).
  { induction ks as [|k ks IH]; intro J; [now exists []|]. cbn [mapM].
    assert (A : exists r, link_rows S e (e_time e) k = Ok r).
    { specialize (J k (or_introl eq_refl)). apply in_flat_map in J as (l & Hl & J). apply In_nth_error in Hl as (i & Hi).
      destruct (st_loc _ (i_struct _ I) i l Hi) as (_ & _ & _ & O & _). destruct (O k J) as (x & X & _).
      unfold link_rows, link_of. rewrite X. cbn [of_option bind]. destruct (st_link _ (i_struct _ I) k x X) as (A & B & _).
      destruct (loc_ok_of _ _ A) as (s & ->). destruct (loc_ok_of _ _ B) as (t & ->). cbn [bind]. eauto. }
    destruct A as (r & ->). cbn [bind]. destruct IH as (rs & ->); [intros; apply J; now right|]. cbn [bind]. eauto. }
  destruct (L _ (fun k K => K)) as (rs & ->). cbn [bind]. eauto.
Qed.

Lemma calm_agents S e e' : e_agents e' = e_agents e -> calm S e -> calm S e'.
Proof. unfold calm. intros ->. auto. Qed.

Lemma hide_written S e e' : write_agents S e = Ok e' -> hide e' = hide e.
Proof.
  unfold write_agents. intro W. apply bind_ok in W as (old & _ & W). apply bind_ok in W as (rows & _ & W). injection W as <-. reflexivity.
Qed.
Lemma hide_roads S e e' : write_links S e = Ok e' -> hide e' = hide e.
Proof. unfold write_links. intro W. apply bind_ok in W as (rows & _ & W). injection W as <-. reflexivity. Qed.
Lemma h_scores S o e g : update_scores (off S) o (hide e) g = rmap hp (update_scores S o e g).
Proof.
  unfold update_scores. rewrite len_locations. change (hide e, g) with (hp (e, g)). apply foldM_map. intros [e1 g1] i.
  unfold hp at 1. cbn [fst snd]. change (e_time (hide e1)) with (e_time e1). rewrite <- h_update. f_equal. symmetry. now apply h_up_loc.
Qed.
Lemma refresh_kept S e e' : refresh_spawn_weights S e = Ok e' -> e_agents e' = e_agents e /\ e_time e' = e_time e.
Proof.
  unfold refresh_spawn_weights. intro H. apply bind_ok in H as (ws & _ & H). destruct (_ <? _)%nat; [discriminate H|].
  injection H as <-. split; reflexivity.
Qed.
Lemma moved_time e e' : Mov e e' -> e_time e' = e_time e.
Proof. intros [M _ _]. rewrite M. reflexivity. Qed.
Lemma scores_kept S o e g e' g' : update_scores S o e g = Ok (e', g') -> e_agents e' = e_agents e /\ e_time e' = e_time e.
Proof. intro H. destruct (sc_update_scores _ _ _ _ _ _ H) as [[M _] _]. rewrite M. split; reflexivity. Qed.

Lemma back {A B C} (h : A -> B) (m : res A) (k : B -> res C) p : bind (rmap h m) k = Ok p -> exists a, m = Ok a /\ k (h a) = Ok p.
Proof. destruct m; cbn; intro H; [eauto|discriminate]. Qed.
Definition quiet_day (fuel : nat) (S : settings) (o : oracle) (e : eco) (g : rng) : res (eco * rng) :=
  e0 <- refresh_spawn_weights S e ;;
  '(e1, g1) <- update_scores S o e0 g ;;
  '(e2, g2) <- evolve_agents S o e1 g1 ;;
  '(e3, g3) <- finish_agents fuel S o e2 g2 ;;
  e6 <- update_recent S e3 ;;
  '(e8, g4) <- deactivate S e6 g3 ;;
  Ok (up_e_time (fun t => t + 1)%Z e8, g4).
Lemma quiet_evolve fuel S o e g : evolve fuel (off S) o e g = quiet_day fuel (off S) o e g.
Proof. reflexivity. Qed.

Local Opaque refresh_spawn_weights update_scores evolve_agents finish_agents write_agents write_links update_recent
  aggregate_arrivals deactivate without_logs.

Lemma t_evolve fuel S o e g p : Inv e -> loggable S e -> evolve fuel (off S) o (hide e) g = Ok p ->
  exists q, evolve fuel S o e g = Ok q.
Proof.
  intros I [LP LN LV] H. rewrite quiet_evolve in H. unfold quiet_day in H. unfold evolve.
  rewrite h_refresh in H. apply back in H as (e0 & E0 & H). rewrite E0. cbn [bind].
  rewrite h_scores in H. apply back in H as ([e1 g1] & E1 & H). rewrite E1. cbn [bind]. unfold hp in H. cbn [fst snd] in H.
  assert (I1 : Inv e1).
  { eapply inv_same; [eapply sl_same, still_update_scores; exact E1|]. eapply inv_same; [eapply sl_same, still_refresh; exact E0|exact I]. }
  assert (A1 : e_agents e1 = e_agents e /\ e_time e1 = e_time e).
  { destruct (refresh_kept _ _ _ E0), (scores_kept _ _ _ _ _ _ E1). split; congruence. }
  destruct A1 as [A1 T1]. assert (C1 : calm S e1) by (apply (calm_agents _ _ _ A1); intros L a J; exact (LV L a J)).
  rewrite t_agents in H by exact C1. apply back in H as ([e2 g2] & E2 & H). rewrite E2. cbn [bind]. unfold hp in H. cbn [fst snd] in H.
  destruct (keep_agents _ _ _ _ _ _ E2) as [K2 V2]. assert (C2 : calm S e2) by exact (calm_keep _ _ _ K2 C1).
  rewrite t_finishes in H by exact C2. apply back in H as ([e3 g3] & E3 & H). rewrite E3. cbn [bind]. unfold hp in H. cbn [fst snd] in H.
  pose proof (keep_finishes _ _ _ _ _ _ _ E3) as K3.
  assert (I3 : Inv e3) by (eapply inv_finish_agents; [|exact E3]; eapply inv_evolve_agents; [|exact E2]; exact I1).
  assert (T3 : e_time e3 = e_time e).
  { rewrite <- T1. rewrite (moved_time _ _ (mov_finish_agents _ _ _ _ _ _ _ E3)). exact (moved_time _ _ (mov_evolve_agents _ _ _ _ _ _ E2)). }
  assert (N3 : e_agents e <> [] -> e_agents e3 <> []).
  { rewrite <- A1. intros N X. apply N. apply (f_equal (@List.length _)) in X as Y.
    destruct K2 as [B2 _ _], K3 as [B3 _ _]. apply (f_equal (@List.length _)) in B2, B3. rewrite !map_length in B2, B3. rewrite Y in B3.
    destruct (e_agents e1); [reflexivity|]. cbn in *. lia. }
  assert (W4 : exists e4, (if (0 <? s_log_agent S)%Z then write_agents S e3 else Ok e3) = Ok e4 /\ hide e4 = hide e3 /\ Inv e4).
  { destruct (0 <? s_log_agent S)%Z eqn:L; [|eauto]. apply Z.ltb_lt in L. destruct (written S e3) as (e4 & W); [exact I3|now apply LP| | |].
    - intro T0. apply N3, LN; [exact L|congruence].
    - intros L2 j. apply (kp_vis _ _ K3), V2, L2.
    - exists e4. split; [exact W|]. split; [exact (hide_written _ _ _ W)|]. eapply inv_same; [eapply sl_same, still_write_agents; exact W|exact I3]. }
  destruct W4 as (e4 & W4 & H4 & I4). rewrite W4. cbn [bind].
  assert (W5 : exists e5, (if (0 <? s_log_link S)%Z then write_links S e4 else Ok e4) = Ok e5 /\ hide e5 = hide e3).
  { destruct (0 <? s_log_link S)%Z; [|eauto]. destruct (roads_written S e4 I4) as (e5 & W). exists e5. split; [exact W|].
    rewrite (hide_roads _ _ _ W). exact H4. }
  destruct W5 as (e5 & W5 & H5). rewrite W5. cbn [bind].
  rewrite <- H5, h_recent in H. apply back in H as (e6 & E6 & H). rewrite E6. cbn [bind]. cbv zeta.
  rewrite <- (h_arrivals S e6), h_deactivate in H. apply back in H as ([e8 g4] & E8 & H). rewrite E8. cbn [bind]. eauto.
Qed.

(** ** A whole simulation *)

Lemma loggable_hide S e : loggable S (hide e) -> loggable S e.
Proof.
  intros [A B C]. split; [exact A| |].
  - intros L T E. apply (B L); [exact T|]. Transparent without_logs. cbn. rewrite E. reflexivity.
  - intros L a I. exact (C L (ha a) (in_map ha _ _ I)).
Qed.

Local Opaque evolve.
Theorem t_step o S c e g p : Inv e -> (forall fuel, c = OEvolve fuel -> loggable S e) -> step o (off S) c (hide e) g = Ok p ->
  exists q, step o S c e g = Ok q.
Proof.
  intros I L H. destruct (evolve_or c) as [(fuel & ->)|N].
  - exact (t_evolve _ _ _ _ _ _ I (L _ eq_refl) H).
  - rewrite h_step in H by exact N. destruct (step o S c e g); [eauto|discriminate H].
Qed.

Lemma survives_any o h : forall g0 e g, run o (quiet_history h) empty_eco g0 = Ok (e, g) ->
  (forall h1 S fuel h2 e1 g1, h = h1 ++ (S, OEvolve fuel) :: h2 -> run o (quiet_history h1) empty_eco g0 = Ok (e1, g1) -> loggable S e1) ->
  exists e', run o h empty_eco g0 = Ok (e', g) /\ without_logs e' = e.
Proof.
  induction h as [|[S c] h IH] using rev_ind; intros g0 e g R L.
  - exists empty_eco. cbn in R. injection R as <- <-. split; reflexivity.
  - unfold quiet_history in R. rewrite map_app in R. unfold run in R. rewrite foldM_app in R. apply bind_ok in R as ([e1 g1] & R1 & R).
    destruct (IH g0 e1 g1 R1) as (e1' & R1' & E1).
    { intros h1 S1 fuel h2 e2 g2 -> R2. apply (L h1 S1 fuel (h2 ++ [(S, c)]) e2 g2); [|exact R2]. now rewrite <- app_assoc. }
    cbn [map foldM fst snd] in R. apply bind_ok in R as ([e2 g2] & R & R2). injection R2 as <- <-. subst e1.
    destruct (t_step o S c e1' g1 (e2, g2)) as ([e2' g2'] & T).
    + eapply reachable_inv. exists h, g0. exact R1'.
    + intros fuel ->. apply loggable_hide. apply (L h S fuel [] (hide e1') g1); [reflexivity|exact R1].
    + exact R.
    + pose proof (s_step o S c e1' g1 _ T) as Q. unfold hp in Q. cbn [fst snd] in Q. rewrite R in Q.
      pose proof (f_equal (fun r => match r with Ok p => p | Err _ => (e2, g2) end) Q) as Q1. cbn beta iota in Q1.
      exists e2'. pose proof (f_equal fst Q1) as Q2. pose proof (f_equal snd Q1) as Q3. cbn [fst snd] in Q2, Q3. subst g2'. split; [|now symmetry].
      unfold run in *. rewrite foldM_app, R1'. cbn [bind foldM fst snd]. rewrite T. reflexivity.
Qed.

Theorem f_survives o agent link camp h g0 e g : run o (quiet_history h) empty_eco g0 = Ok (e, g) ->
  (forall h1 S fuel h2 e1 g1, h = h1 ++ (S, OEvolve fuel) :: h2 -> run o (quiet_history h1) empty_eco g0 = Ok (e1, g1) ->
     loggable (logging agent link camp S) e1) ->
  exists e', run o (logged_history agent link camp h) empty_eco g0 = Ok (e', g) /\ without_logs e' = e.
Proof.
  assert (Q : forall h, quiet_history (logged_history agent link camp h) = quiet_history h).
  { intro h0. unfold quiet_history, logged_history. rewrite map_map. reflexivity. }
  intros R L. apply survives_any; [now rewrite Q|]. intros h1 S fuel h2 e1 g1 E R1.
  unfold logged_history in E. apply map_eq_app in E as (l1 & l2 & -> & E1 & E2). apply map_eq_cons in E2 as ([S0 c] & l3 & -> & E3 & _).
  cbn [fst snd] in E3. pose proof (f_equal fst E3) as A. pose proof (f_equal snd E3) as B. cbn [fst snd] in A, B. subst c. rewrite <- A.
  apply (L l1 S0 fuel l3 e1 g1 eq_refl). rewrite <- Q. unfold logged_history. now rewrite E1.
Qed.
