(** * Terminate: decisions, hops and steps never run out of fuel *)

From Coq Require Import Lia Lqa.
From Verif Require Import Base State Moving Crawling Scoring Diagnostics Flee DataTable
  Spawning InputGeography Api SpecAgents SpecRoutes SpecTravel Lemmas Inv InvMoves InvStruct Frames
  ScoreFrames RouteProofs Travel.
Local Open Scope Q_scope.

(** ** Person.evolve *)

Lemma nf_float v : NF (py_float v).
Proof. destruct v; try discriminate. now apply nf_opt. Qed.
Lemma nf_dict_of e i : NF (dict_of e i). Proof. now apply nf_opt. Qed.
Lemma nf_loc_attrs e l : NF (loc_attrs e l). Proof. apply nf_dict_of. Qed.
Lemma nf_agent_of e i : NF (agent_of e i). Proof. now apply nf_opt. Qed.
Lemma nf_endpoint_of e k : NF (endpoint_of e k). Proof. apply nf_loc_of. Qed.
Lemma nf_randint a b g : NF (np_randint a b g).
Proof. unfold np_randint. nf. Qed.
#[export] Hint Resolve nf_float nf_dict_of nf_loc_attrs nf_agent_of nf_endpoint_of nf_randint routes_terminate : nf.

Lemma nf_movechance S o e a l f t : NF (calculateMoveChance S o e a l f t).
Proof.
  unfold calculateMoveChance, awareness_weight, agent_attr.
  repeat first [apply nf_forecast; apply nf_forecast_level | progress nf].
Qed.

Lemma nf_py_remove {A} eqb (v : A) l : NF (py_remove eqb v l).
Proof. induction l; cbn; nf. Qed.
Lemma py_remove_length {A} eqb (v : A) l l' : py_remove eqb v l = Ok l' ->
  List.length l = Datatypes.S (List.length l').
Proof.
  revert l'; induction l as [|a l IH]; intros l' H; cbn in H; [discriminate|].
  destruct (eqb a v); [injection H as <-; reflexivity|]. rstep H. injection H as <-. cbn. now rewrite (IH v0).
Qed.
Lemma nf_prune_loop thr fuel : forall i ws rs, (List.length ws <= i + fuel)%nat -> NF (prune_loop fuel thr i ws rs).
Proof.
  induction fuel as [|fuel IH]; intros i ws rs L; cbn; destruct (nth_error ws i) eqn:E; try discriminate.
  - apply nth_error_lt in E. lia.
  - destruct (Qltb _ _).
    + apply nf_bind; [apply nf_py_remove|]. intros ws' H. apply py_remove_length in H.
      apply nf_bind; [nf|]. intros r _. apply nf_bind; [apply nf_py_remove|]. intros rs' _. apply IH. lia.
    + apply IH. lia.
Qed.
Lemma nf_prune S ws rs : NF (pruneRoutes S ws rs).
Proof.
  unfold pruneRoutes. destruct (Qltb _ _); [nf|]. destruct ws; [nf|].
  apply nf_bind; [nf|]. intros; apply nf_prune_loop. lia.
Qed.
Lemma nf_choose {A} ws (rs : list A) g : NF (chooseFromWeights ws rs g).
Proof. unfold chooseFromWeights, random_choices. nf. Qed.
#[export] Hint Resolve nf_movechance nf_py_remove nf_prune nf_choose : nf.
Lemma nf_fixedRoutes S o e a l t : NF (fixedRoutes S o e a l t).
Proof. unfold fixedRoutes. apply nf_mapM. intros [? [[? ?] ?]] _. nf. Qed.
#[export] Hint Resolve nf_fixedRoutes : nf.
Lemma nf_select S o e a l t g : NF (selectRoute S o e a l t g).
Proof. unfold selectRoute. nf. Qed.
Lemma nf_dest S e d names : forall i, NF (dest_is_full_camp S e d i names).
Proof. induction names; intro i; cbn; nf. Qed.
#[export] Hint Resolve nf_select nf_dest : nf.
Lemma nf_next_step S e r links : NF (take_next_step S e r links).
Proof. induction links; cbn; nf. Qed.
Lemma nf_count_attributes at_ t : NF (count_attributes at_ t).
Proof. apply nf_foldM. intros s [n v] _. cbn. nf. Qed.
#[export] Hint Resolve nf_next_step nf_count_attributes : nf.
Lemma nf_handle_travel S ai p tr e : NF (handle_travel S ai p tr e).
Proof. unfold handle_travel, dec_at, inc_at, link_inc. cbv zeta. nf. Qed.
#[export] Hint Resolve nf_handle_travel : nf.
Lemma nf_person_evolve S o t f ai e g : NF (person_evolve S o t f ai e g).
Proof. unfold person_evolve. cbv zeta. nf. Qed.
Lemma nf_speed S e a k g : NF (travel_speed S e a k g).
Proof. unfold travel_speed, link_attrs. nf. Qed.
#[export] Hint Resolve nf_person_evolve nf_speed : nf.

(** ** Person.finish_travel *)

(** Every link is at least [m0] long, and no speed possible on it exceeds [v]. *)
Definition bounded (S : settings) (e : eco) (m0 v : Q) : Prop :=
  forall ki k, nth_error (e_links e) ki = Some k ->
    m0 <= k_distance k /\ forall n s, speed_today S e n k s -> s <= v.

Lemma bounded_net S e e' m0 v : Net e e' -> bounded S e m0 v -> bounded S e' m0 v.
Proof.
  intros N B ki k H. destruct (net_link _ _ _ _ (net_sym _ _ N) H) as (k0 & H0 & E & Ed).
  destruct (B ki k0 H0) as [B1 B2]. split; [now rewrite <- Ed|].
  intros n s Sp. apply (B2 n). eapply speed_net; [apply net_sym; exact N| |exact Sp]. assumption.
Qed.

Lemma nf_finish S o t ai m0 v fuel : forall e g a, Inv e -> rng_ok g -> bounded S e m0 v ->
  nth_error (e_agents e) ai = Some a -> gone_of a = None ->
  (forall ki k, a_location a = PLink ki -> nth_error (e_links e) ki = Some k ->
     exists f, fuel = Datatypes.S f /\ a_distance_travelled_on_link a <= k_distance k /\
       v <= a_distance_moved_this_timestep a + (k_distance k - a_distance_travelled_on_link a)
            + inject_Z (Z.of_nat f) * m0) ->
  NF (finish_travel fuel S o t ai e g).
Proof.
  induction fuel as [|fuel IH]; intros e g a I G Bd Ha NG Hk; cbn [finish_travel];
    unfold agent_of; rewrite Ha; cbn [of_option bind];
    pose proof (i_agents _ I a (nth_error_In _ _ Ha)) as [_ AO]; unfold gone_of in NG;
    (destruct (a_travelling a) eqn:T; cbn [negb]; [|nf]).
  { destruct (a_location a) as [|ki|]; try (destruct AO; congruence); try discriminate.
    destruct AO as [AO _]. destruct (nth_error_ex _ _ AO) as [k Kk].
    destruct (Hk ki k eq_refl Kk) as (f & F & _). discriminate. }
  destruct (a_location a) as [|ki|] eqn:L; [discriminate| |discriminate].
  apply nf_bind; [nf|]. intros k K. apply link_of_ok in K.
  destruct (Hk ki k eq_refl K) as (f & F & Lx & Lv). injection F as <-. clear Hk.
  apply nf_bind; [nf|]. intros [s g1] E. cbv zeta.
  pose proof (travel_speed_spec _ _ _ _ _ _ _ G E) as Sp. pose proof (streams_speed _ _ _ _ _ _ _ E) as St.
  pose proof (streams_ok _ _ St G) as G1. destruct (Bd ki k K) as [Bd1 Bd2]. specialize (Bd2 _ _ Sp).
  match goal with |- context [up_agent ai ?f e] =>
    assert (S1 : Same e (up_agent ai f e)) by (apply same_up_agent; reflexivity);
    pose proof (mv_up_agent ai f e) as M1; set (f1 := f) in * end.
  assert (H1 : nth_error (e_agents (up_agent ai f1 e)) ai = Some (f1 a)) by (cbn; rewrite nth_upd_same, Ha; reflexivity).
  set (e1 := up_agent ai f1 e) in *.
  assert (I1 : Inv e1) by (eapply inv_same; eauto).
  destruct (Qltb (k_distance k) (a_distance_travelled_on_link a + s)) eqn:Ed; [qb|nf].
  set (m2 := a_distance_moved_this_timestep a + s + (k_distance k - (a_distance_travelled_on_link a + s))) in *.
  assert (M2E : m2 == a_distance_moved_this_timestep a + (k_distance k - a_distance_travelled_on_link a)) by (unfold m2; lra).
  match goal with |- context [up_agent ai ?f e1] =>
    assert (S2 : Same e1 (up_agent ai f e1))
      by (apply same_up_agent; intro; destruct (0 <? s_log_agent S)%Z; reflexivity);
    pose proof (mv_up_agent ai f e1) as M2; set (f2 := f) in * end.
  assert (H2 : nth_error (e_agents (up_agent ai f2 e1)) ai = Some (f2 (f1 a))).
  { cbn [up_agent up_e_agents e_agents]. rewrite nth_upd_same, H1; reflexivity. }
  assert (F3 : a_distance_moved_this_timestep (f2 (f1 a)) = m2).
  { unfold f2. destruct (0 <? s_log_agent S)%Z; cbn; auto. }
  set (e2 := up_agent ai f2 e1) in *.
  assert (I2 : Inv e2) by (eapply inv_same; eauto).
  assert (M12 : Mv ai e e2) by (eapply mv_trans; eauto).
  set (b2 := f2 (f1 a)) in *. clearbody b2.
  destruct (k_closed k) eqn:Ck; [nf|].
  match goal with |- context [handle_travel S ai _ false ?x] => set (e3 := x) in * end.
  assert (X3 : Mv ai e e3 /\ Inv e3 /\ exists b3, nth_error (e_agents e3) ai = Some b3 /\
    a_distance_moved_this_timestep b3 = m2).
  { unfold e3. match goal with |- context [if ?b then _ else _] => destruct b end.
    - split; [eapply mv_trans; [exact M12|apply mv_up_agent]|]. split.
      + eapply inv_same; [|exact I2]. apply same_up_agent; reflexivity.
      + eexists. cbn [up_agent up_e_agents e_agents]. rewrite nth_upd_same, H2. split; [reflexivity|]. auto.
    - eauto 10. }
  destruct X3 as (M3 & I3 & b3 & H3 & B2). clearbody e3.
  apply nf_bind; [nf|]. intros e4 E0. pose proof E0 as E4. apply mv_handle_travel in E4 as [M4 U4].
  assert (I4 : Inv e4) by (eapply inv_handle_travel; [exact I3| |exact E0]; reflexivity).
  apply nf_bind; [nf|]. intros ep _.
  match goal with |- context [person_evolve S o t _ ai ?x g1] => set (e5 := x) in * end.
  set (b4 := relocate (PLoc (k_endpoint k)) false b3).
  assert (X5 : Mv ai e e5 /\ Inv e5 /\ nth_error (e_agents e5) ai = Some b4).
  { assert (M4' : Mv ai e e4) by (eapply mv_trans; eauto).
    assert (H4 : nth_error (e_agents e4) ai = Some b4) by (rewrite U4, nth_upd_same, H3; reflexivity).
    unfold e5. match goal with |- context [if ?b then _ else _] => destruct b end; auto. split.
    - eapply mv_trans; [exact M4'|]. apply mv_up_loc. reflexivity.
    - split; [|exact H4]. eapply inv_same; [|exact I4]. apply same_up_loc; lsimpl. }
  destruct X5 as (M5 & I5 & H5). clearbody e5.
  destruct (Qltb m2 s) eqn:Em; [qb|nf].
  apply nf_bind; [nf|]. intros ratio _. apply nf_bind; [nf|]. intros [e6 g2] E3.
  pose proof (inv_person_evolve _ _ _ _ _ _ _ _ _ I5 E3) as I6.
  destruct (person_evolve_decided _ _ _ _ _ _ _ _ _ _ I5 E3 H5) as (M6 & St6 & b6 & H6 & D6).
  destruct (decided_fix _ _ _ D6) as (X1 & X2 & X3).
  assert (N6 : Net e e6) by (eapply net_trans; eapply net_mv; eauto).
  pose proof (bounded_net _ _ _ _ _ N6 Bd) as Bd6.
  apply (IH e6 g2 b6); auto.
  { eapply streams_ok; eauto. }
  intros kj kk Lk Kk. destruct (Bd6 kj kk Kk) as [B1 _].
  assert (Z0 : a_distance_travelled_on_link b6 = 0 /\ a_distance_moved_this_timestep b6 = m2).
  { split; [|rewrite X2; exact B2].
    destruct D6 as [->|(i & rest & _ & _ & [->|(ki' & k' & _ & ->)])]; reflexivity. }
  destruct Z0 as [-> ->].
  destruct fuel as [|fuel].
  { exfalso. change (inject_Z (Z.of_nat 0)) with 0 in Lv. lra. }
  exists fuel. split; [reflexivity|].
  assert (Fz : inject_Z (Z.of_nat (Datatypes.S fuel)) == inject_Z (Z.of_nat fuel) + 1).
  { rewrite Nat2Z.inj_succ. unfold Z.succ. rewrite inject_Z_plus. reflexivity. }
  rewrite Fz in Lv.
  (* lengths are non-negative where used *)
  destruct (Qlt_le_dec m0 0) as [Neg|Pos].
  - exfalso. assert (0 <= inject_Z (Z.of_nat fuel)) by (change 0 with (inject_Z 0); rewrite <- Zle_Qle; lia).
    nra.
  - split; lra.
Qed.
