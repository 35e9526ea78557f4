(** * LogHistory: the agent log over a whole history, for C78 *)

From Coq Require Import Lia.
From Verif Require Import Base State Moving Crawling Scoring Diagnostics Flee DataTable
  Spawning InputGeography Api SpecAgents SpecHistory SpecRoutes SpecTravel SpecReports Lemmas Inv InvMoves InvStruct Frames ScoreFrames
  CoreProofs ReportProofs Zones LogFrame Coupling AgentLog SpecAgentLog.
Local Open Scope list_scope.

Lemma evolve_unlogged fuel S o e g e' g' : (s_log_agent S <= 0)%Z -> evolve fuel S o e g = Ok (e', g') ->
  e_agents_out e' = e_agents_out e.
Proof.
  intros LG H. unfold evolve in H. rstep H. rename v into e0.
  assert (O0 : e_agents_out e0 = e_agents_out e) by (apply logs_refresh in E; apply E).
  rstep H. destruct v as [e1 g1]. apply sc_update_scores in E0 as [C1 _]. apply logs_sc in C1 as [C1 _].
  rstep H. destruct v as [e2 g2]. apply mov_evolve_agents in E0 as [M2 _ _].
  rstep H. destruct v as [e3 g3]. apply mov_finish_agents in E0 as [M3 _ _].
  assert (B : (0 <? s_log_agent S)%Z = false) by (apply Z.ltb_ge; exact LG). rewrite B in H. cbn [bind] in H.
  rstep H. rename v into e5.
  assert (O5 : e_agents_out e5 = e_agents_out e3) by (unfold write_links in E0; rinv E0; auto).
  rstep H. rename v into e6. unfold update_recent in E1. rstep E1. injection E1 as <-.
  cbv zeta in H. rstep H. destruct v0 as [e8 g4]. injection H as <- <-.
  assert (O8 : e_agents_out e8 = e_agents_out e5).
  { transitivity (e_agents_out (aggregate_arrivals S (up_e_agents (fun _ => v) e5))).
    - unfold deactivate in E1. destruct (s_camps_are_sinks S); [|rinv E1; auto].
      eapply (foldM_rel (fun s s' => e_agents_out (fst s') = e_agents_out (fst s))) in E1; [exact E1|auto|congruence|].
      intros [ea ga] ai [eb gb] _ Hs. cbn [fst]. rstep Hs. rstep Hs; [rinv Hs; auto|].
      rstep Hs; try discriminate; [|rinv Hs; auto]. rstep Hs. rstep Hs; [|rinv Hs; auto].
      destruct (rng_u ga). do 2 rstep Hs. rstep Hs; rinv Hs; auto.
    - unfold aggregate_arrivals. destruct (0 <? s_log_camp S)%Z; reflexivity. }
  cbn [up_e_time e_agents_out]. rewrite O8, O5, M3. cbn [up_e_agents up_e_links up_e_locations e_agents_out].
  rewrite M2. cbn [e_agents_out]. exact (eq_trans C1 O0).
Qed.

(** ** The lines of one step *)
Definition about (n : nat) (b : list agent_row) : Prop := Forall (fun r => ar_agent r = n) b.
Definition main_of (n : nat) (r : agent_row) : bool := (Nat.eqb (ar_agent r) n && Z.eqb (ar_hop r) 0)%bool.

Lemma about_none n m b : about m b -> m <> n -> filter (main_of n) b = [].
Proof.
  intros A N. induction A as [|r b R A IH]; [reflexivity|]. cbn [filter]. unfold main_of at 1. rewrite R.
  rewrite (proj2 (Nat.eqb_neq m n) N). exact IH.
Qed.
Lemma filter_concat n : forall bs k, (forall i b, nth_error bs i = Some b -> about (k + i) b) ->
  filter (main_of n) (List.concat bs) = match (if (n <? k)%nat then None else nth_error bs (n - k)) with Some b => filter (main_of n) b | None => [] end.
Proof.
  induction bs as [|b bs IH]; intros k A.
  - cbn [List.concat filter]. destruct (n <? k)%nat; [reflexivity|]. now destruct (n - k)%nat.
  - cbn [List.concat]. rewrite filter_app. rewrite (IH (Datatypes.S k)) by (intros i c Hc; replace (Datatypes.S k + i)%nat with (k + Datatypes.S i)%nat by lia; exact (A (Datatypes.S i) c Hc)).
    pose proof (A 0%nat b eq_refl) as B. rewrite Nat.add_0_r in B.
    destruct (Nat.ltb_spec n (Datatypes.S k)), (Nat.ltb_spec n k); try lia.
    + rewrite (about_none n k b B) by lia. reflexivity.
    + replace (n - k)%nat with 0%nat by lia. cbn. apply app_nil_r.
    + rewrite (about_none n k b B) by lia. replace (n - k)%nat with (Datatypes.S (n - Datatypes.S k)) by lia. reflexivity.
Qed.

Lemma passed_about e day nb n a : forall ks hop rs, passed e day nb hop n a ks rs ->
  Forall (fun r => ar_time r = day /\ ar_agent r = n /\ ar_home r = name_at e (a_home_location a) /\ ar_attributes r = map snd (a_attributes a)) rs /\
  ((0 < hop)%Z -> nb = true -> filter (main_of n) rs = []).
Proof.
  induction ks as [|ki ks IH]; intros hop [|r rs] H; cbn [passed] in H; try contradiction; [split; [constructor|reflexivity]|].
  destruct H as [(T & Hp & A & Ho & _ & _ & _ & _ & At) H]. apply IH in H as [H1 H2]. split; [constructor; auto|].
  intros P N. cbn [filter]. rewrite (H2 ltac:(lia) N). unfold main_of. rewrite N in Hp. rewrite Hp.
  replace (hop =? 0)%Z with false by (symmetry; apply Z.eqb_neq; lia). now rewrite andb_false_r.
Qed.
Lemma block_about e day level n a b : block e day level n a b ->
  Forall (fun r => ar_time r = day /\ ar_agent r = n /\ ar_home r = name_at e (a_home_location a) /\ ar_attributes r = map snd (a_attributes a)) b /\
  ((level = 1 \/ 3 <= level)%Z -> exists r, filter (main_of n) b = [r] /\ ar_time r = day).
Proof.
  intros (r & hops & -> & (T & Hp & A & Ho & _ & _ & _ & _ & At) & P). apply passed_about in P as P1. destruct P1 as [P1 P2]. split; [constructor; auto|].
  intro L. exists r. split; [|exact T]. cbn [filter]. unfold main_of at 1. rewrite A, Hp, Nat.eqb_refl. cbn [Z.eqb andb]. f_equal.
  destruct L as [->|L].
  - cbn in P. destruct hops; [reflexivity|contradiction].
  - apply P2; [lia|]. apply Z.ltb_lt. lia.
Qed.

(** ** The invariant *)
Record Log (e : eco) : Prop := {
  lg_time : (0 <= e_time e)%Z;
  lg_tells : forall r, In r (e_agents_out e) -> (0 <= ar_time r < e_time e)%Z /\
    exists a, nth_error (e_agents e) (ar_agent r) = Some a /\ ar_home r = name_at e (a_home_location a) /\ ar_attributes r = map snd (a_attributes a) }.

Lemma log_empty : Log empty_eco.
Proof. split; [cbn; lia|intros r []]. Qed.

Lemma name_stays o S c e g e' g' i l : step o S c e g = Ok (e', g') -> nth_error (e_locations e) i = Some l -> name_at e' i = name_at e i.
Proof.
  intros H L. assert (R : run o [(S, c)] e g = Ok (e', g')) by (unfold run; cbn [foldM fst snd]; rewrite H; reflexivity).
  destruct (places_stay _ _ _ _ _ _ _ _ R L) as (l' & L' & N & _). unfold name_at. now rewrite L, L', N.
Qed.

(** One step of the log: the lines added, and what they are about *)
Lemma evolve_lines fuel S o e g e' g' : Log e -> evolve fuel S o e g = Ok (e', g') ->
  exists bs, e_agents_out e' = e_agents_out e ++ List.concat bs /\
    (forall n b, nth_error bs n = Some b -> exists a a', nth_error (e_agents e) n = Some a /\ nth_error (e_agents e') n = Some a' /\
       if deactivated a then b = [] else block e' (e_time e) (s_log_agent S) n a' b) /\
    if (s_log_agent S <=? 0)%Z then bs = [] else List.length bs = List.length (e_agents e).
Proof.
  intros Lg H. destruct (Z.leb_spec (s_log_agent S) 0).
  - exists []. split; [cbn; rewrite app_nil_r; eapply evolve_unlogged; eauto|]. split; [|reflexivity]. intros [|n] b Hb; discriminate Hb.
  - destruct (evolve_log _ _ _ _ _ _ _ H0 H) as (bs & E & L & B). apply evolve_agent_spec in H as (_ & _ & Ln & Ag). exists bs. split.
    { rewrite E. destruct (Z.eqb_spec (e_time e) 0) as [Z0|_]; [|reflexivity]. destruct (e_agents_out e) as [|r rs] eqn:Eo; [reflexivity|].
      destruct (lg_tells _ Lg r) as [? _]; [rewrite Eo; now left|]. lia. }
    split; [|congruence]. intros n b Hb.
    destruct (nth_error (e_agents e) n) as [a|] eqn:Ha; [|apply nth_error_None in Ha; assert (n < List.length bs)%nat by (apply nth_error_Some; congruence); lia].
    destruct (Ag n a Ha) as (a' & Ha' & _). exists a, a'. split; [reflexivity|]. split; [exact Ha'|]. eapply B; eauto.
Qed.

Lemma log_step_inv o S c e g e' g' : Inv e -> Log e -> is_clear c = false -> step o S c e g = Ok (e', g') -> Log e'.
Proof.
  intros I Lg N H. destruct (is_evolve c) eqn:Ev.
  - destruct c; try discriminate. cbn [step] in H. destruct (evolve_lines _ _ _ _ _ _ _ Lg H) as (bs & E & B & _).
    pose proof (evolve_agent_spec _ _ _ _ _ _ _ H) as (T & _ & Ln & Ag). pose proof (lg_time _ Lg). split; [lia|].
    intros r Hr. rewrite E in Hr. apply in_app_iff in Hr as [Hr|Hr].
    + destruct (lg_tells _ Lg r Hr) as (Tm & a & Ha & Ho & At). split; [lia|]. destruct (Ag _ _ Ha) as (a' & Ha' & Hh & Haa & _).
      exists a'. split; [exact Ha'|]. rewrite Hh, Haa. split; [|exact At].
      destruct (nth_error_ex (e_locations e) (a_home_location a)) as [l Hl]; [apply (i_agents _ I a (nth_error_In _ _ Ha))|].
      rewrite Ho. symmetry. eapply (name_stays o S (OEvolve fuel)); eauto.
    + apply in_concat in Hr as (b & Hb & Hr). apply In_nth_error in Hb as (n & Hb). destruct (B n b Hb) as (a & a' & Ha & Ha' & Bl).
      destruct (deactivated a); [subst b; contradiction|]. apply block_about in Bl as [Bl _]. eapply Forall_forall in Bl; [|exact Hr].
      destruct Bl as (Tm & An & Ho & At). split; [lia|]. exists a'. rewrite An. auto.
  - pose proof (step_quiet _ _ _ _ _ _ _ Ev N H) as [_ T (new & A & _)]. pose proof (step_logs _ _ _ _ _ _ _ Ev H) as [O _].
    pose proof (lg_time _ Lg). split; [lia|]. rewrite O, A, T. intros r Hr. destruct (lg_tells _ Lg r Hr) as (Tm & a & Ha & Ho & At).
    split; [exact Tm|]. exists a. split; [rewrite nth_error_app1; [exact Ha|]; eapply nth_error_Some; congruence|]. split; [|exact At].
    destruct (nth_error_ex (e_locations e) (a_home_location a)) as [l Hl]; [apply (i_agents _ I a (nth_error_In _ _ Ha))|].
    rewrite Ho. symmetry. eapply name_stays; eauto.
Qed.

Lemma run_cons o c h e g r : run o (c :: h) e g = Ok r -> exists e1 g1, step o (fst c) (snd c) e g = Ok (e1, g1) /\ run o h e1 g1 = Ok r.
Proof. unfold run. cbn [foldM fst snd]. intro H. rstep H. destruct v as [e1 g1]. exists e1, g1. auto. Qed.

Lemma log_run o : forall h e g e' g', Inv e -> Log e -> no_clear h -> run o h e g = Ok (e', g') -> Log e'.
Proof.
  induction h as [|c h IH]; intros e g e' g' I Lg N H; [injection H as <- <-; exact Lg|].
  apply run_cons in H as (e1 & g1 & H1 & H). inversion N as [|? ? N1 N2]; subst.
  eapply IH; [eapply step_inv; eauto|eapply log_step_inv; eauto|exact N2|exact H].
Qed.

Theorem log_tells o h g0 e g : no_clear h -> run o h empty_eco g0 = Ok (e, g) ->
  forall r, In r (e_agents_out e) -> (0 <= ar_time r < e_time e)%Z /\ tells e r.
Proof.
  intros N H r Hr. pose proof (log_run _ _ _ _ _ _ inv_empty log_empty N H) as Lg. pose proof (run_inv _ _ _ _ _ _ inv_empty H) as I.
  destruct (lg_tells _ Lg r Hr) as (T & a & Ha & Ho & At). split; [exact T|].
  destruct (nth_error_ex (e_locations e) (a_home_location a)) as [l Hl]; [apply (i_agents _ I a (nth_error_In _ _ Ha))|].
  exists a, l. repeat split; auto. rewrite Ho. unfold name_at. now rewrite Hl.
Qed.

(** ** Which days an agent is in the log *)
Definition Days (e : eco) : Prop := forall n a, nth_error (e_agents e) n = Some a ->
  exists first, (0 <= first)%Z /\ (0 <= a_timesteps_since_departure a)%Z /\
    days_logged n (e_agents_out e) = days_from first (Z.to_nat (a_timesteps_since_departure a)) /\
    (first + a_timesteps_since_departure a <= e_time e)%Z /\
    (deactivated a = false -> first + a_timesteps_since_departure a = e_time e)%Z.

Lemma days_more first k : days_from first (Datatypes.S k) = days_from first k ++ [(first + Z.of_nat k)%Z].
Proof. unfold days_from. rewrite seq_S, map_app. reflexivity. Qed.

Lemma days_step o S c e g e' g' : Log e -> Days e -> is_clear c = false ->
  (is_evolve c = true -> (s_log_agent S = 1 \/ 3 <= s_log_agent S)%Z) -> step o S c e g = Ok (e', g') -> Days e'.
Proof.
  intros Lg D N L H. destruct (is_evolve c) eqn:Ev.
  - specialize (L eq_refl). destruct c; try discriminate. cbn [step] in H. destruct (evolve_lines _ _ _ _ _ _ _ Lg H) as (bs & E & B & Len).
    pose proof (evolve_agent_spec _ _ _ _ _ _ _ H) as (T & _ & Ln & Ag).
    replace (s_log_agent S <=? 0)%Z with false in Len by (symmetry; apply Z.leb_gt; lia).
    intros n a' Ha'. destruct (nth_error (e_agents e) n) as [a|] eqn:Ha; [|apply nth_error_None in Ha; assert (n < List.length (e_agents e'))%nat by (apply nth_error_Some; congruence); lia].
    destruct (Ag n a Ha) as (a2 & Ha2 & _ & _ & Ti & Gn & _). assert (a2 = a') as -> by congruence. clear Ha2.
    destruct (D n a Ha) as (first & F & P & Dl & Le & Eq).
    destruct (nth_error bs n) as [b|] eqn:Hb; [|apply nth_error_None in Hb; assert (n < List.length (e_agents e))%nat by (apply nth_error_Some; congruence); lia].
    assert (Fl : days_logged n (e_agents_out e') = days_logged n (e_agents_out e) ++ map ar_time (filter (main_of n) b)).
    { rewrite E. unfold days_logged. change (fun r => (ar_agent r =? n)%nat && (ar_hop r =? 0)%Z)%bool with (main_of n).
      rewrite filter_app, map_app. f_equal. f_equal. rewrite (filter_concat n bs 0).
      - cbn [Nat.ltb Nat.leb]. rewrite Nat.sub_0_r, Hb. reflexivity.
      - intros i b' Hb'. destruct (B i b' Hb') as (x & x' & _ & _ & Bl). destruct (deactivated x); [subst b'; constructor|].
        apply block_about in Bl as [Bl _]. eapply Forall_impl; [|exact Bl]. cbn. intros r (_ & Q0 & _). exact Q0. }
    destruct (B n b Hb) as (x & x' & Hx & Hx' & Bl). assert (x = a) as -> by congruence. assert (x' = a') as -> by congruence.
    exists first. split; [exact F|]. rewrite T, Ti. destruct (deactivated a) eqn:De.
    + rewrite Z.add_0_r. subst b. cbn [filter map] in Fl. rewrite app_nil_r in Fl. repeat split; [lia|congruence|lia|].
      intro Q0. unfold deactivated in De, Q0. rewrite (Gn eq_refl) in Q0. congruence.
    + apply block_about in Bl as [_ Bl]. destruct (Bl L) as (r & Fr & Tr). rewrite Fr in Fl. cbn [map] in Fl. specialize (Eq eq_refl).
      repeat split; try lia. rewrite Fl, Dl, Tr. replace (Z.to_nat (a_timesteps_since_departure a + 1)) with (Datatypes.S (Z.to_nat (a_timesteps_since_departure a))) by lia.
      rewrite days_more. do 2 f_equal. lia.
  - pose proof (step_quiet _ _ _ _ _ _ _ Ev N H) as [_ T (new & A & Fr)]. pose proof (step_logs _ _ _ _ _ _ _ Ev H) as [O _].
    intros n a Ha. rewrite O, T. rewrite A in Ha. destruct (Nat.lt_ge_cases n (List.length (e_agents e))) as [Lt|Ge].
    + rewrite nth_error_app1 in Ha by exact Lt. exact (D n a Ha).
    + rewrite nth_error_app2 in Ha by exact Ge. apply nth_error_In in Ha. eapply Forall_forall in Fr; [|exact Ha]. destruct Fr as (i & at_ & ->).
      cbn [new_agent a_timesteps_since_departure]. exists (e_time e). pose proof (lg_time _ Lg). repeat split; try lia.
      unfold days_logged, days_from. cbn [Z.to_nat seq map].
      assert (X : filter (main_of n) (e_agents_out e) = []).
      { assert (Y : forall rs, (forall r, In r rs -> In r (e_agents_out e)) -> filter (main_of n) rs = []).
        { induction rs as [|r rs IH]; intro Hin; [reflexivity|]. cbn [filter]. rewrite IH by (intros; apply Hin; now right). unfold main_of.
          destruct (lg_tells _ Lg r (Hin r (or_introl eq_refl))) as (_ & b & Hb & _). destruct (Nat.eqb_spec (ar_agent r) n) as [Q0|]; [|reflexivity]. rewrite Q0 in Hb.
          assert (n < List.length (e_agents e))%nat by (apply nth_error_Some; congruence). lia. }
        apply Y. auto. }
      change (fun r => (ar_agent r =? n)%nat && (ar_hop r =? 0)%Z)%bool with (main_of n). now rewrite X.
Qed.

Theorem log_days o h g0 e g : no_clear h -> logged_well h -> run o h empty_eco g0 = Ok (e, g) ->
  forall n a, nth_error (e_agents e) n = Some a -> exists first, (0 <= first)%Z /\ (0 <= a_timesteps_since_departure a)%Z /\
    days_logged n (e_agents_out e) = days_from first (Z.to_nat (a_timesteps_since_departure a)) /\
    (first + a_timesteps_since_departure a <= e_time e)%Z /\
    (deactivated a = false -> first + a_timesteps_since_departure a = e_time e)%Z.
Proof.
  intros N L H. enough (Days e) by assumption.
  assert (X : forall h e g e' g', Inv e -> Log e -> Days e -> no_clear h -> logged_well h -> run o h e g = Ok (e', g') -> Days e').
  { clear. induction h as [|c h IH]; intros e g e' g' I Lg D N L H; [injection H as <- <-; exact D|].
    apply run_cons in H as (e1 & g1 & H1 & H). inversion N as [|? ? N1 N2]; subst. inversion L as [|? ? L1 L2]; subst.
    eapply IH; [eapply step_inv; eauto|eapply log_step_inv; eauto|eapply days_step; [..|exact H1]; eauto|exact N2|exact L2|exact H]. }
  eapply X; [exact inv_empty|exact log_empty| |exact N|exact L|exact H]. intros n a Ha. destruct n; discriminate Ha.
Qed.
