(** * CoreProofs: head counts, travelling flags, deactivation, clock, traffic *)

From Coq Require Import Lia.
From Verif Require Import Base State Moving Crawling Scoring Diagnostics Flee DataTable
  Spawning InputGeography Api SpecAgents SpecHistory Lemmas Inv InvMoves InvStruct Frames Traffic.

Lemma how_many_countZ f l : how_many f l = countZ f l.
Proof.
  unfold how_many. induction l as [|a l IH]; [reflexivity|]. rewrite countZ_cons. cbn [filter].
  destruct (f a); cbn [List.length]; lia.
Qed.

Lemma location_counts o e g : reachable o e g ->
  forall i l, nth_error (e_locations e) i = Some l ->
    l_numAgents l = how_many (fun a => in_location i a || left_from i a)%bool (e_agents e) /\
    (0 <= l_numAgents l)%Z.
Proof.
  intros R i l Hi. pose proof (reachable_par _ _ _ R) as P. apply reachable_inv in R as I.
  assert (H : l_numAgents l = countZ (stays i) (e_agents e)).
  { eapply i_lcount; [exact I|]. unfold lheads. rewrite P. now apply (map_nth_error (lhead false)). }
  rewrite how_many_countZ. fold (stays i). change (fun a => stays i a) with (stays i).
  split; [exact H|]. rewrite H. apply countZ_nonneg.
Qed.

Lemma link_counts o e g : reachable o e g ->
  forall ki k, nth_error (e_links e) ki = Some k ->
    k_numAgents k = how_many (on_link ki) (e_agents e) /\ (0 <= k_numAgents k)%Z.
Proof.
  intros R i l Hi. pose proof (reachable_par _ _ _ R) as P. apply reachable_inv in R as I.
  assert (H : k_numAgents l = countZ (on_link i) (e_agents e)).
  { eapply i_kcount; [exact I|]. unfold kheads. rewrite P. now apply (map_nth_error (khead false)). }
  rewrite how_many_countZ. split; [exact H|]. rewrite H. apply countZ_nonneg.
Qed.

(** ** Sums *)

Lemma sumZ_counts (zs : list Z) (f : nat -> agent -> bool) ags n :
  (forall i z, nth_error zs i = Some z -> z = countZ (f (n + i)%nat) ags) ->
  sumZ zs = sumZ (map (fun i => countZ (f i) ags) (seq n (List.length zs))).
Proof.
  revert n; induction zs as [|z zs IH]; intros n H; cbn; [reflexivity|].
  rewrite (H 0%nat z eq_refl), Nat.add_0_r. f_equal. apply IH.
  intros i w Hi. rewrite (H (Datatypes.S i) w Hi). now rewrite Nat.add_succ_r.
Qed.

Lemma sum_ind_seq (f : nat -> bool) j n m : (n <= j < n + m)%nat ->
  (forall i, f i = Nat.eqb j i) ->
  sumZ (map (fun i => if f i then 1 else 0)%Z (seq n m)) = 1%Z.
Proof.
  intros Hj Hf. revert n Hj; induction m; intros n Hj; [lia|]. cbn. rewrite Hf.
  destruct (Nat.eqb_spec j n) as [->|].
  - assert (E : sumZ (map (fun i => if f i then 1 else 0)%Z (seq (Datatypes.S n) m)) = 0%Z); [|lia].
    clear IHm Hj. assert (H : forall k, (n < k)%nat -> sumZ (map (fun i => if f i then 1 else 0)%Z (seq k m)) = 0%Z).
    { induction m; intros k Hk; cbn; [reflexivity|]. rewrite Hf, IHm by lia.
      now rewrite (proj2 (Nat.eqb_neq n k)) by lia. }
    apply H; lia.
  - rewrite IHm; lia.
Qed.
Lemma sum_zero_seq (f : nat -> bool) n m : (forall i, f i = false) ->
  sumZ (map (fun i => if f i then 1 else 0)%Z (seq n m)) = 0%Z.
Proof.
  intro H; revert n; induction m; intros n; cbn; [reflexivity|]. rewrite H, IHm. reflexivity.
Qed.

Lemma sum_map_add {A} (f g : A -> Z) l :
  sumZ (map (fun i => f i + g i)%Z l) = (sumZ (map f l) + sumZ (map g l))%Z.
Proof. induction l; cbn; lia. Qed.

Lemma heads_partition e ags : (forall a, In a ags -> agent_ok e a) ->
  (sumZ (map (fun i => countZ (stays i) ags) (seq 0 (List.length (e_locations e)))) +
   sumZ (map (fun i => countZ (on_link i) ags) (seq 0 (List.length (e_links e)))))%Z =
  Z.of_nat (List.length ags).
Proof.
  induction ags as [|a ags IH]; intro H.
  - cbn [List.length]. unfold countZ; cbn.
    assert (E : forall l, sumZ (map (fun _ : nat => 0%Z) l) = 0%Z) by (induction l; cbn; lia).
    rewrite !E. reflexivity.
  - assert (E1 : forall (f : nat -> agent -> bool) l,
      sumZ (map (fun i => countZ (f i) (a :: ags)) l) =
      (sumZ (map (fun i => if f i a then 1 else 0) l) + sumZ (map (fun i => countZ (f i) ags) l))%Z).
    { intros f l. rewrite <- sum_map_add. f_equal. apply map_ext. intro i. rewrite countZ_cons.
      destruct (f i a); lia. }
    rewrite !E1. cbn [List.length].
    assert (Ha : agent_ok e a) by (apply H; now left).
    assert (IH' := IH (fun b Hb => H b (or_intror Hb))).
    assert (C : (sumZ (map (fun i => if stays i a then 1 else 0) (seq 0 (List.length (e_locations e)))) +
       sumZ (map (fun i => if on_link i a then 1 else 0) (seq 0 (List.length (e_links e)))))%Z = 1%Z).
    { destruct Ha as [_ Ha]. unfold stays, in_location, left_from, on_link.
      destruct (a_location a) as [j|j|j].
      - rewrite (sum_ind_seq (fun i => (Nat.eqb j i || false)%bool) j) by (intros; rewrite ?orb_false_r; lia || reflexivity).
        rewrite (sum_zero_seq (fun _ => false)) by reflexivity. reflexivity.
      - rewrite (sum_ind_seq (fun i => Nat.eqb j i) j) by (intros; lia || reflexivity).
        rewrite (sum_zero_seq (fun _ => (false || false)%bool)) by reflexivity. reflexivity.
      - rewrite (sum_ind_seq (fun i => (false || Nat.eqb j i)%bool) j) by (intros; lia || reflexivity).
        rewrite (sum_zero_seq (fun _ => false)) by reflexivity. reflexivity. }
    lia.
Qed.

Lemma total_counts o e g : reachable o e g ->
  (sumZ (map l_numAgents (e_locations e)) + sumZ (map k_numAgents (e_links e)))%Z =
  Z.of_nat (num_agents e).
Proof.
  intro R. pose proof (reachable_par _ _ _ R) as P. apply reachable_inv in R as I.
  rewrite (sumZ_counts (map l_numAgents _) stays (e_agents e) 0),
    (sumZ_counts (map k_numAgents _) on_link (e_agents e) 0), (map_length l_numAgents), (map_length k_numAgents).
  - apply heads_partition. apply i_agents, I.
  - intros i z Hi. eapply i_kcount; [exact I|]. unfold kheads; now rewrite P.
  - intros i z Hi. eapply i_lcount; [exact I|]. unfold lheads; now rewrite P.
Qed.

Lemma evolve_keeps fuel S o e g e' g' : evolve fuel S o e g = Ok (e', g') ->
  num_agents e' = num_agents e /\
  map a_home_location (e_agents e') = map a_home_location (e_agents e) /\
  map a_attributes (e_agents e') = map a_attributes (e_agents e).
Proof.
  intro H. apply evolve_agent_spec in H as (_ & _ & L & H). split; [exact L|].
  assert (G : forall {B} (f : agent -> B) (l l' : list agent), List.length l' = List.length l ->
     (forall i a, nth_error l i = Some a -> exists a', nth_error l' i = Some a' /\ f a' = f a) ->
     map f l' = map f l).
  { clear. intros B f. induction l as [|a l IH]; intros [|a' l'] L H; try discriminate; [reflexivity|].
    cbn. destruct (H 0%nat a eq_refl) as (b & Hb & E). injection Hb as <-. rewrite E. f_equal.
    apply IH; [now injection L|]. intros i c Hc. exact (H (Datatypes.S i) c Hc). }
  split; (apply G; [exact L|]; intros i a Ha; destruct (H i a Ha) as (a' & Ha' & P); exists a'; tauto).
Qed.

Lemma positions_ok o e g : reachable o e g ->
  forall a, In a (e_agents e) ->
    (a_home_location a < List.length (e_locations e))%nat /\
    match a_location a with
    | PLoc i => (i < List.length (e_locations e))%nat /\ a_travelling a = false
    | PLink k => (k < List.length (e_links e))%nat /\ a_travelling a = true
    | PGone i => (i < List.length (e_locations e))%nat /\ a_travelling a = false
    end.
Proof. intros R a Ha. apply reachable_inv in R as I. now apply (i_agents _ I). Qed.

Lemma links_ok o e g : reachable o e g ->
  forall k, In k (e_links e) ->
    (k_startpoint k < List.length (e_locations e))%nat /\
    (k_endpoint k < List.length (e_locations e))%nat.
Proof.
  intros R k Hk. apply reachable_inv in R as I. apply In_nth_error in Hk as [ki Hk].
  destruct (st_link _ (i_struct _ I) ki k Hk) as (A & B & _). auto.
Qed.

(** Nobody is deactivated by any call but evolve with sink camps. *)
Lemma step_deactivates o S c e g e' g' ai a a' :
  step o S c e g = Ok (e', g') ->
  nth_error (e_agents e) ai = Some a -> nth_error (e_agents e') ai = Some a' ->
  deactivated a = false -> deactivated a' = true ->
  is_evolve c = true /\ s_camps_are_sinks S = true /\
  exists i l, a_location a' = PGone i /\ nth_error (e_locations e') i = Some l /\ l_camp l = true.
Proof.
  intros H Ha Ha' D D'. destruct (is_evolve c) eqn:N1.
  - destruct c; try discriminate. apply evolve_agent_spec in H as (_ & _ & _ & H).
    destruct (H ai a Ha) as (b & Hb & _ & _ & _ & _ & G). assert (b = a') as -> by congruence.
    destruct (G D D'). auto.
  - destruct (is_clear c) eqn:N2.
    + destruct c; try discriminate. cbn in H. rstep H. rinv H.
      apply clear_spec in E as (A & _). rewrite A in Ha'. destruct ai; discriminate.
    + apply step_quiet in H as [_ _ (new & E & _)]; auto. rewrite E in Ha'.
      rewrite nth_error_app1 in Ha' by now apply nth_error_lt in Ha. congruence.
Qed.

(** New agents are active *)
Lemma step_new_active o S c e g e' g' ai a' :
  step o S c e g = Ok (e', g') ->
  nth_error (e_agents e) ai = None -> nth_error (e_agents e') ai = Some a' ->
  deactivated a' = false.
Proof.
  intros H Hn Ha'. apply nth_error_None in Hn. destruct (is_evolve c) eqn:N1.
  - destruct c; try discriminate. apply evolve_agent_spec in H as (_ & _ & L & H).
    apply nth_error_lt in Ha'. lia.
  - destruct (is_clear c) eqn:N2.
    + destruct c; try discriminate. cbn in H. rstep H. rinv H.
      apply clear_spec in E as (A & _). rewrite A in Ha'. destruct ai; discriminate.
    + apply step_quiet in H as [_ _ (new & E & F)]; auto. rewrite E in Ha'.
      rewrite nth_error_app2 in Ha' by assumption. apply nth_error_In in Ha'.
      eapply Forall_forall in F; [|exact Ha']. destruct F as (i & at_ & ->). reflexivity.
Qed.

Lemma no_sinks_run o h : forall e g e' g',
  Forall (fun c => s_camps_are_sinks (fst c) = false) h ->
  run o h e g = Ok (e', g') -> (forall a, In a (e_agents e) -> deactivated a = false) ->
  forall a, In a (e_agents e') -> deactivated a = false.
Proof.
  induction h as [|c h IH]; intros e g e' g' F H D; unfold run in *; cbn in H.
  - injection H as <- <-. exact D.
  - rstep H. destruct v as [e1 g1]. inversion F; subst. eapply IH; [eassumption|exact H|].
    intros a Ha. apply In_nth_error in Ha as [ai Ha].
    destruct (deactivated a) eqn:G; [|reflexivity]. exfalso.
    destruct (nth_error (e_agents e) ai) as [b|] eqn:Hb.
    + assert (Db : deactivated b = false) by (apply D; eapply nth_error_In; eauto).
      destruct (step_deactivates _ _ _ _ _ _ _ _ _ _ E Hb Ha Db G) as (_ & C & _). congruence.
    + rewrite (step_new_active _ _ _ _ _ _ _ _ _ E Hb Ha) in G. discriminate.
Qed.

Lemma no_sinks o h g0 e g :
  Forall (fun c => s_camps_are_sinks (fst c) = false) h ->
  run o h empty_eco g0 = Ok (e, g) ->
  forall a, In a (e_agents e) -> deactivated a = false.
Proof. intros F H. eapply no_sinks_run; eauto. intros a []. Qed.

(** Clock *)
Lemma step_clock o S c e g e' g' : step o S c e g = Ok (e', g') ->
  e_time e' = (e_time e + (if is_evolve c then 1 else 0))%Z.
Proof.
  intro H. destruct (is_evolve c) eqn:N1.
  - destruct c; try discriminate. now apply evolve_agent_spec in H.
  - rewrite Z.add_0_r. destruct (is_clear c) eqn:N2.
    + destruct c; try discriminate. cbn in H. rstep H. rinv H. now apply clear_spec in E.
    + eapply q_time, step_quiet; eauto.
Qed.

Lemma evolve_timesteps fuel S o e g e' g' ai a : evolve fuel S o e g = Ok (e', g') ->
  nth_error (e_agents e) ai = Some a ->
  exists a', nth_error (e_agents e') ai = Some a' /\
    a_timesteps_since_departure a' =
      (a_timesteps_since_departure a + (if deactivated a then 0 else 1))%Z.
Proof.
  intros H Ha. apply evolve_agent_spec in H as (_ & _ & _ & H).
  destruct (H ai a Ha) as (a' & Ha' & _ & _ & T & _). eauto.
Qed.

Lemma other_calls o S c e g e' g' : is_evolve c = false -> is_clear c = false ->
  step o S c e g = Ok (e', g') ->
  exists new, e_agents e' = e_agents e ++ new /\
    forall a, In a new -> a_timesteps_since_departure a = 0%Z /\
      a_location a = PLoc (a_home_location a).
Proof.
  intros N1 N2 H. apply step_quiet in H as [_ _ (new & E & F)]; auto.
  exists new; split; [assumption|]. intros a Ha. eapply Forall_forall in F; [|exact Ha].
  destruct F as (i & at_ & ->). split; reflexivity.
Qed.

Lemma clear_empties o S names e g e' g' :
  step o S (OClearLocations names) e g = Ok (e', g') -> e_agents e' = [].
Proof. cbn; intro H. rstep H. rinv H. now apply clear_spec in E. Qed.

(** Traffic *)
Lemma cum_bound o e g : reachable o e g ->
  forall k, In k (e_links e) -> (k_numAgents k <= k_cumNumAgents k)%Z.
Proof.
  intros R k Hk. pose proof (reachable_par _ _ _ R) as P. apply reachable_inv in R as I.
  pose proof (i_cum _ I k Hk) as H. rewrite P in H. exact H.
Qed.

Lemma later_grow o e g e' g' : later o e g e' g' ->
  forall ki k, nth_error (e_links e) ki = Some k ->
    exists k', nth_error (e_links e') ki = Some k' /\
      k_startpoint k' = k_startpoint k /\ k_endpoint k' = k_endpoint k /\
      k_distance k' = k_distance k /\ (k_cumNumAgents k <= k_cumNumAgents k')%Z.
Proof. intros (h & H). exact (run_grow _ _ _ _ _ _ H). Qed.

Lemma later_gone o e g e' g' : later o e g e' g' ->
  forall ai a, nth_error (e_agents e) ai = Some a -> deactivated a = true ->
    exists a', nth_error (e_agents e') ai = Some a' /\ a_location a' = a_location a.
Proof. intros (h & H) ai a. exact (run_gone _ _ _ _ _ _ _ _ H). Qed.
