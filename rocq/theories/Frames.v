(** * Frames: what the calls leave unchanged *)

From Coq Require Import Lia.
From Verif Require Import Base State Moving Crawling Scoring Diagnostics Flee DataTable
  Spawning InputGeography Api SpecAgents SpecHistory Lemmas Inv InvMoves InvStruct.

(** ** Calls other than evolve and clearLocationsFromAgents *)

Definition fresh (a : agent) : Prop := exists i attrs, a = new_agent i attrs.

Record Quiet (e e' : eco) : Prop := {
  q_par : e_par e' = e_par e;
  q_time : e_time e' = e_time e;
  q_agents : exists new, e_agents e' = e_agents e ++ new /\ Forall fresh new }.

Lemma quiet_refl e : Quiet e e.
Proof. split; auto. exists []; rewrite app_nil_r; auto. Qed.
Lemma quiet_trans a b c : Quiet a b -> Quiet b c -> Quiet a c.
Proof.
  intros [P1 T1 (n1 & A1 & F1)] [P2 T2 (n2 & A2 & F2)]; split; try congruence.
  exists (n1 ++ n2). rewrite A2, A1, app_assoc. split; [reflexivity|now apply Forall_app].
Qed.
Lemma quiet_eq e e' : e_par e' = e_par e -> e_time e' = e_time e -> e_agents e' = e_agents e ->
  Quiet e e'.
Proof. intros; split; auto. exists []; rewrite app_nil_r; auto. Qed.
Lemma quiet_still e e' : Still e e' -> Quiet e e'.
Proof. intros [[[]]]; now apply quiet_eq. Qed.
#[export] Hint Resolve quiet_refl quiet_still : core.

Lemma quiet_add_location S o n r x y lt mc cap pop f c at_ e g e' g' :
  add_location S o n r x y lt mc cap pop f c at_ e g = Ok (e', g') -> Quiet e e'.
Proof.
  unfold add_location; intro H.
  rstep H. rstep H. cbv zeta in H. do 2 rstep H. destruct v1. rstep H. rinv H.
  assert (Q0 : Quiet e a) by (destruct at_; inversion Heqp; subst; auto using quiet_eq).
  eapply quiet_trans; [exact Q0|]. eapply quiet_trans; [|eapply quiet_still, still_refresh; eauto].
  assert (Q1 : Quiet a e0); [|destruct Q1 as [? ? ?]; split; assumption].
  eapply quiet_trans; [|eapply quiet_still, still_updateLocationScore; eauto].
  now apply quiet_eq.
Qed.

Lemma quiet_link_up n1 n2 d f at_ e e' : link_up n1 n2 d f at_ e = Ok e' -> Quiet e e'.
Proof.
  intro H. apply link_up_spec in H as (i1 & i2 & e0 & did & _ & _ & _ & _ & C & ->).
  destruct C as [(-> & -> & ->)|(a & -> & -> & ->)]; now apply quiet_eq.
Qed.

Lemma quiet_remove_1way s t co e e' b : remove_link_1way s t co e = Ok (e', b) -> Quiet e e'.
Proof.
  unfold remove_link_1way; intro H. rstep H. rstep H. destruct v0 as [[e1 l] r]. rinv H.
  apply quiet_trans with e1; [|now apply quiet_eq].
  eapply (foldM_rel (fun s s' => Quiet (fst (fst s)) (fst (fst s')))) in E0;
    [exact E0|auto|eauto using quiet_trans|].
  intros [[e2 l2] r2] ki [[e3 l3] r3] _ Hs. unfold remove_step in Hs. cbn [fst].
  rinv Hs; auto. now apply quiet_eq.
Qed.
Lemma quiet_reopen_1way s t e e' b : reopen_link_1way s t e = Ok (e', b) -> Quiet e e'.
Proof.
  unfold reopen_link_1way; intro H. rstep H. rstep H. destruct v0 as [[e1 l] r]. rinv H.
  apply quiet_trans with e1; [|now apply quiet_eq].
  eapply (foldM_rel (fun s s' => Quiet (fst (fst s)) (fst (fst s')))) in E0;
    [exact E0|auto|eauto using quiet_trans|].
  intros [[e2 l2] r2] ki [[e3 l3] r3] _ Hs. unfold reopen_step in Hs. cbn [fst].
  rinv Hs; auto. now apply quiet_eq.
Qed.
Lemma quiet_close s t e e' b : close_link s t false e = Ok (e', b) -> Quiet e e'.
Proof. apply quiet_remove_1way. Qed.
Lemma quiet_reopen s t e e' b : reopen_link s t false e = Ok (e', b) -> Quiet e e'.
Proof. apply quiet_reopen_1way. Qed.

Lemma quiet_append i at_ e e' : append_agent i at_ e = Ok e' -> Quiet e e'.
Proof.
  unfold append_agent; intro H; rinv H. split; try reflexivity.
  exists [new_agent i at_]. split; [reflexivity|]. repeat constructor. red; eauto.
Qed.
Lemma quiet_add_agent S i at_ e e' : add_agent S i at_ e = Ok e' -> Quiet e e'.
Proof.
  unfold add_agent; intro H; rstep H. cbv zeta in H.
  eapply quiet_trans; [|eapply quiet_append; exact H].
  destruct (s_TakeFromPopulation S); auto. now apply quiet_eq.
Qed.
Lemma quiet_spawn_one S dm t i e g e' g' :
  spawn_one S dm t i (e, g) = Ok (e', g') -> Quiet e e'.
Proof.
  unfold spawn_one; intros H. do 2 rstep H. destruct v0. rstep H. rinv H.
  destruct t; [eapply quiet_add_agent | eapply quiet_append]; eauto.
Qed.
Lemma quiet_spawns {A} S dm t (f : A -> nat) l e g e' g' :
  foldM (fun st a => spawn_one S dm t (f a) st) l (e, g) = Ok (e', g') -> Quiet e e'.
Proof.
  intro H. eapply (foldM_rel (fun s s' => Quiet (fst s) (fst s'))) in H;
    [exact H|auto|eauto using quiet_trans|].
  intros [e1 g1] i [e2 g2] _ Hs. eapply quiet_spawn_one; exact Hs.
Qed.
Lemma quiet_spawn_n S dm t i n e g e' g' :
  spawn_n S dm t i n (e, g) = Ok (e', g') -> Quiet e e'.
Proof. intro H. eapply (quiet_spawns S dm t (fun _ => i)). exact H. Qed.
Lemma quiet_initial S dm d i e g e' g' :
  add_initial_refugees S dm d i e g = Ok (e', g') -> Quiet e e'.
Proof.
  unfold add_initial_refugees; intros H. rstep H; [rinv H; auto|]. do 4 rstep H.
  eapply quiet_spawn_n; eauto.
Qed.
Lemma quiet_spawn_loop S dm num e g n e' g' :
  spawn_loop S dm num e g = Ok (n, e', g') -> Quiet e e'.
Proof.
  unfold spawn_loop; intros H.
  eapply (foldM_rel (fun s s' => Quiet (snd (fst s)) (snd (fst s')))) in H;
    [exact H|auto|eauto using quiet_trans|].
  intros [[t1 e1] g1] i [[t2 e2] g2] _ H1. cbn [fst snd] in *. do 2 rstep H1. destruct v0.
  rstep H1. destruct v0. rinv H1. eapply quiet_spawn_n; eauto.
Qed.
Lemma quiet_spawn_daily S dm t sp d e g n sp' d' e' g' :
  spawn_daily_displaced S dm t sp d e g = Ok (n, sp', d', e', g') -> Quiet e e'.
Proof.
  unfold spawn_daily_displaced; intros H.
  rstep H; [|rstep H]; [rstep H; destruct v as [[? ?] ?]; rinv H; eapply quiet_spawn_loop; eauto..|].
  rstep H. destruct v. rstep H. destruct v. cbv zeta in H.
  match type of H with (let (_, _) := ?x in _) = _ => destruct x end.
  rstep H. destruct v. rstep H. destruct v. rinv H.
  eapply quiet_trans; [|eapply (quiet_spawns S dm true (fun i => i)); exact E2].
  destruct (_ && _)%bool; auto. apply quiet_still, still_reduce.
Qed.
Lemma quiet_read_agents S rows e e' : read_agents S rows e = Ok e' -> Quiet e e'.
Proof.
  unfold read_agents; intros H. rstep H. destruct v as [[? ?] ?]. rinv H.
  eapply (foldM_rel (fun s s' => Quiet (snd s) (snd s'))) in E;
    [exact E|auto|eauto using quiet_trans|].
  intros [[f h] e1] r [[f2 h2] e2] _ H1. unfold read_agent_row in H1. cbn [snd] in *.
  rstep H1. rstep H1; [rinv H1; auto|]. rstep H1; [rinv H1; auto|]. do 3 rstep H1. rinv H1.
  match goal with E : foldM _ _ _ = Ok _ |- _ =>
    eapply (foldM_rel Quiet) in E; [exact E|auto|eauto using quiet_trans|] end.
  intros e3 i e4 _ H3. rstep H3. rstep H3; [eapply quiet_add_agent; eauto | rinv H3; auto].
Qed.

(** Every call other than [evolve] and [clearLocationsFromAgents] *)
Theorem step_quiet o S c e g e' g' : is_evolve c = false -> is_clear c = false ->
  step o S c e g = Ok (e', g') -> Quiet e e'.
Proof.
  intros N1 N2 H. destruct c; try discriminate; cbn [step] in H;
    try (rstep H; rinv H);
    try match goal with E : rmap fst _ = Ok _ |- _ =>
          let P := fresh in apply rmap_ok in E as ([? ?] & P & ->); cbn [fst] end.
  - eapply quiet_add_location; eauto.
  - eapply quiet_link_up; eauto.
  - eapply quiet_still, still_set_attr; eauto.
  - eapply quiet_add_agent; eauto.
  - eapply quiet_append; eauto.
  - eapply (foldM_rel Quiet) in E; [exact E|auto|eauto using quiet_trans|].
    intros; eapply quiet_append; eauto.
  - destruct twoway; eapply quiet_remove_1way; eauto.
  - destruct twoway; eapply quiet_reopen_1way; eauto.
  - eapply (change_location_rel Quiet); eauto using quiet_trans, quiet_close, quiet_reopen.
  - eapply (change_location_rel Quiet); eauto using quiet_trans, quiet_close, quiet_reopen.
  - eapply (change_border_rel Quiet); eauto using quiet_trans, quiet_close, quiet_reopen.
  - eapply (change_border_rel Quiet); eauto using quiet_trans, quiet_close, quiet_reopen.
  - eapply quiet_still, still_close_camp; eauto.
  - eapply quiet_still, still_open_camp; eauto.
  - eapply quiet_still, still_change_location_type; eauto.
  - eapply quiet_still, still_set_forced; eauto.
  - rinv H. eapply quiet_still, still_closures; eauto.
  - eapply (enact_rel Quiet); eauto using quiet_trans, quiet_close, quiet_reopen.
  - eapply quiet_still, still_refresh; eauto.
  - eapply quiet_still, still_add_conflict; eauto.
  - eapply quiet_still, still_remove_conflict; eauto.
  - eapply quiet_still, still_set_intensity; eauto.
  - eapply quiet_initial; eauto.
  - eapply quiet_spawn_daily; eauto.
  - eapply quiet_read_agents; eauto.
  - eapply (store_input_rel Quiet); [..|eassumption]; eauto using quiet_trans.
    + intros; eapply quiet_add_location; eauto.
    + intros; eapply quiet_link_up; eauto.
  - eapply quiet_still, still_update_attributes; eauto.
  - eapply quiet_still, still_add_new_conflict_zones; eauto.
Qed.

(** ** clearLocationsFromAgents *)

Lemma clear_spec names e e' : clear_locations names e = Ok e' ->
  e_agents e' = [] /\ e_time e' = e_time e /\ e_par e' = e_par e /\
  (forall a, In a (e_agents e) -> deactivated a = false).
Proof.
  unfold clear_locations; intro H. rstep H. rinv H. cbn. split; [reflexivity|].
  assert (P : e_time v = e_time e /\ e_par v = e_par e).
  { eapply (foldM_rel (fun a b => e_time b = e_time a /\ e_par b = e_par a)) in E;
      [exact E|auto|intros ? ? ? [] []; split; congruence|].
    intros s a s' _ Hs. rstep Hs. rstep Hs; [|discriminate].
    unfold dec_at in Hs. rinv Hs; auto. }
  destruct P as [-> ->]. do 2 (split; [reflexivity|]).
  revert E. generalize e at 2. induction (e_agents e) as [|a l IH]; intros e0 H b Hb; [easy|].
  cbn in H. rstep H. destruct Hb as [<-|Hb]; [|eapply IH; eauto].
  rstep E. unfold pos_name in E0. unfold deactivated. destruct (a_location a); auto. discriminate.
Qed.

(** ** evolve *)

Definition gone_of (a : agent) : option nat :=
  match a_location a with PGone i => Some i | _ => None end.
Definition tview (a : agent) := (a_home_location a, a_attributes a, a_timesteps_since_departure a, gone_of a).

(** Steps that change neither the clock nor who is deactivated *)
Record Turn (e e' : eco) : Prop := {
  t_par : e_par e' = e_par e;
  t_time : e_time e' = e_time e;
  t_view : map tview (e_agents e') = map tview (e_agents e) }.

Lemma turn_refl e : Turn e e.
Proof. split; auto. Qed.
Lemma turn_trans a b c : Turn a b -> Turn b c -> Turn a c.
Proof. intros [] []; split; congruence. Qed.
Lemma turn_still e e' : Still e e' -> Turn e e'.
Proof. intros [[[]]]; split; congruence. Qed.
Lemma turn_up_agent i f e : (forall a, tview (f a) = tview a) -> Turn e (up_agent i f e).
Proof. intro H; split; try reflexivity. cbn. now apply map_upd. Qed.
Lemma turn_up_loc i f e : Turn e (up_loc i f e).
Proof. split; reflexivity. Qed.
#[export] Hint Resolve turn_refl turn_still turn_up_loc : core.

Lemma map_upd_if {A B} (g : A -> B) n f l :
  (forall a, nth_error l n = Some a -> g (f a) = g a) -> map g (upd n f l) = map g l.
Proof.
  revert n; induction l as [|a l IH]; intros [|n] H; cbn; auto.
  - now rewrite H.
  - now rewrite IH.
Qed.

Lemma handle_travel_par S ai p tr e e' : handle_travel S ai p tr e = Ok e' ->
  e_par e' = e_par e /\ e_time e' = e_time e.
Proof.
  unfold handle_travel, dec_at, inc_at; intro H. rstep H. rstep H. cbv zeta in H. rstep H. rinv H.
  rinv E0; rinv E1; cbn; auto.
Qed.

Lemma turn_handle_travel S ai p tr e e' : handle_travel S ai p tr e = Ok e' -> Turn e e'.
Proof.
  intro H. pose proof (handle_travel_par _ _ _ _ _ _ H) as [P T].
  apply handle_travel_spec in H as (a & Ha & _ & HA & NG & R).
  split; try assumption. rewrite HA. apply map_upd_if. intros b Hb.
  assert (b = a) as -> by congruence. unfold tview, gone_of, relocate; cbn.
  destruct p; [| |contradiction]; (destruct (a_location a) as [x|x|x] eqn:E; [reflexivity..|]; now destruct (NG x)).
Qed.

Lemma turn_person_evolve S o t f ai e g e' g' :
  person_evolve S o t f ai e g = Ok (e', g') -> Turn e e'.
Proof.
  intros H. apply person_evolve_spec in H as [->|(a & i & l & rest & _ & _ & _ & _ & H)]; auto.
  destruct H as [->|(ki & _ & H)].
  - now apply turn_up_agent.
  - eapply turn_trans; [|eapply turn_handle_travel; exact H]. now apply turn_up_agent.
Qed.

Lemma turn_finish_travel fuel S o t ai e g e' g' :
  finish_travel fuel S o t ai e g = Ok (e', g') -> Turn e e'.
Proof.
  revert e g; induction fuel as [|fuel IH]; intros e g H; cbn [finish_travel] in H;
    unfold agent_of in H; rstep H; apply of_option_ok in E; (rstep H; [rinv H; auto|]);
    [discriminate|].
  rstep H; try discriminate. rstep H. rstep H. destruct v1 as [speed g1]. cbv zeta in H.
  match type of H with context [up_agent ai ?f e] =>
    assert (S1 : Turn e (up_agent ai f e)) by (apply turn_up_agent; reflexivity) end.
  match type of S1 with Turn e ?x => set (e1 := x) in * end.
  rstep H; [|rinv H; assumption].
  match type of H with context [up_agent ai ?f e1] =>
    assert (S2 : Turn e (up_agent ai f e1))
      by (eapply turn_trans; [exact S1|];
          apply turn_up_agent; intro; destruct (0 <? s_log_agent S)%Z; reflexivity) end.
  match type of S2 with Turn e ?x => set (e2 := x) in * end.
  rstep H.
  - rstep H. rinv H. eapply turn_trans; [exact S2|eapply turn_handle_travel; eassumption].
  - rstep H.
    assert (I3 : Turn e v1).
    { eapply turn_trans; [|eapply turn_handle_travel; eassumption].
      eapply turn_trans; [exact S2|].
      match goal with |- context [if ?b then _ else _] => destruct b end; auto.
      apply turn_up_agent; reflexivity. }
    rstep H.
    match type of H with context [if ?b then up_loc ?i ?f v1 else v1] =>
      assert (I4 : Turn e (if b then up_loc i f v1 else v1)) by
        (destruct b; auto; eapply turn_trans; [exact I3|auto]) end.
    match type of H with (if ?b then _ else _) = _ => destruct b end.
    + rstep H. rstep H. destruct v4 as [e6 g2]. eapply turn_trans; [|eapply IH; exact H].
      eapply turn_trans; [exact I4|]. eapply turn_person_evolve; eassumption.
    + rinv H. exact I4.
Qed.

Lemma turn_foldM2 {A} (f : eco * rng -> A -> res (eco * rng)) l e g e' g' :
  (forall e g a e' g', f (e, g) a = Ok (e', g') -> Turn e e') ->
  foldM f l (e, g) = Ok (e', g') -> Turn e e'.
Proof.
  intros Hf H. eapply (foldM_rel (fun s s' => Turn (fst s) (fst s'))) in H;
    [exact H|auto|eauto using turn_trans|]. intros [] a [] _ Hs. eapply Hf; exact Hs.
Qed.

Lemma turn_evolve_agents S o e g e' g' : evolve_agents S o e g = Ok (e', g') -> Turn e e'.
Proof.
  unfold evolve_agents; intros H. eapply turn_foldM2; [|exact H].
  clear. intros e g ai e' g' H. cbv zeta beta iota in H. rstep H.
  eapply turn_trans with (if (1 <? s_log_agent S)%Z
                    then up_agent ai (up_a_locations_visited (fun _ => [])) e else e).
  { destruct (1 <? s_log_agent S)%Z; auto. now apply turn_up_agent. }
  rstep H; [eapply turn_person_evolve; eauto.. | rinv H; auto].
Qed.

(** Updates of all elements, one index after the other *)
Lemma upd_shift {A} (f : A -> A) n a l : upd (Datatypes.S n) f (a :: l) = a :: upd n f l.
Proof. reflexivity. Qed.

Lemma fold_upd_seq {A} (f : A -> A) l k :
  fold_left (fun s i => upd i f s) (seq (List.length k) (List.length l)) (k ++ l) = k ++ map f l.
Proof.
  revert k; induction l as [|a l IH]; intro k; cbn; [reflexivity|].
  assert (E : upd (List.length k) f (k ++ a :: l) = (k ++ [f a]) ++ l).
  { clear. induction k; cbn; [reflexivity|]. now rewrite IHk. }
  rewrite E. specialize (IH (k ++ [f a])). rewrite app_length, Nat.add_1_r in IH.
  rewrite IH, <- app_assoc. reflexivity.
Qed.
Lemma fold_upd_all {A} (f : A -> A) l :
  fold_left (fun s i => upd i f s) (seq 0 (List.length l)) l = map f l.
Proof. exact (fold_upd_seq f l []). Qed.

Lemma foldM_view {S A V} (f : S -> A -> res S) (view : S -> V) (h : V -> A -> V) l s s' :
  (forall s a s', In a l -> f s a = Ok s' -> view s' = h (view s) a) ->
  foldM f l s = Ok s' -> view s' = fold_left h l (view s).
Proof.
  revert s; induction l as [|a l IH]; intros s Hf H; cbn in *; [now rinv H|].
  rstep H. rewrite <- (Hf s a v) by auto. apply IH; auto.
Qed.

Definition tick (v : nat * dict * Z * option nat) :=
  match v with (h, at_, z, None) => (h, at_, (z + 1)%Z, None) | _ => v end.

Lemma finish_agents_view fuel S o e g e' g' : finish_agents fuel S o e g = Ok (e', g') ->
  e_par e' = e_par e /\ e_time e' = e_time e /\
  map tview (e_agents e') = map tick (map tview (e_agents e)).
Proof.
  unfold finish_agents; intro H.
  assert (P : e_par e' = e_par e /\ e_time e' = e_time e).
  { eapply (foldM_rel (fun a b => e_par (fst b) = e_par (fst a) /\ e_time (fst b) = e_time (fst a))) in H;
      [exact H|auto|intros ? ? ? [] []; split; congruence|].
    intros [e1 g1] ai [e2 g2] _ Hs. cbn [fst]. rstep Hs.
    rstep Hs; [rstep Hs; destruct v0; rinv Hs.. | rinv Hs; auto];
      apply turn_finish_travel in E0 as []; auto. }
  destruct P as [P1 P2]. do 2 (split; [assumption|]).
  eapply (foldM_view _ (fun s => map tview (e_agents (fst s))) (fun v i => upd i tick v)) in H.
  - cbn [fst] in H. rewrite <- (map_length tview (e_agents e)) in H. rewrite H.
    apply fold_upd_all.
  - clear H P1 P2. intros [ea ga] ai [eb gb] _ Hs. cbn [fst]. rstep Hs. unfold agent_of in E.
    apply of_option_ok in E.
    assert (Hv : nth_error (map tview (e_agents ea)) ai = Some (tview v)) by now apply map_nth_error.
    assert (Ht : forall e2, Turn ea e2 -> gone_of v = None ->
        map tview (e_agents (up_agent ai (up_a_timesteps_since_departure (fun z => z + 1)%Z) e2)) =
        upd ai tick (map tview (e_agents ea))).
    { intros e2 T G. cbn. rewrite <- (t_view _ _ T).
      destruct (nth_error (e_agents e2) ai) as [b|] eqn:Eb.
      - assert (Hb : tview b = tview v).
        { assert (nth_error (map tview (e_agents e2)) ai = Some (tview b)) by now apply map_nth_error.
          rewrite (t_view _ _ T) in H. congruence. }
        assert (Gb : gone_of b = None) by (unfold tview in Hb; congruence).
        rewrite (upd_ext ai _ (fun _ => up_a_timesteps_since_departure (fun z => z + 1)%Z b))
          by (intros; congruence).
        apply map_upd_at with (a := b); [assumption|]. unfold tview, gone_of in *; cbn.
        rewrite Gb. reflexivity.
      - rewrite !upd_none; auto. now rewrite nth_error_map, Eb. }
    rstep Hs; [rstep Hs; destruct v0; rinv Hs.. |].
    + apply Ht; [eapply turn_finish_travel; eassumption|]. unfold gone_of; now rewrite M.
    + apply Ht; [eapply turn_finish_travel; eassumption|]. unfold gone_of; now rewrite M.
    + rinv Hs. rewrite (upd_ext ai tick (fun x => x)), upd_id; [reflexivity|].
      intros w Hw. assert (w = tview v) as -> by congruence. unfold tview, gone_of; rewrite M. reflexivity.
Qed.

Lemma turn_update_recent S e e' : update_recent S e = Ok e' -> Turn e e'.
Proof.
  unfold update_recent; intro H; rinv H. split; try reflexivity.
  cbn. clear -E. apply mapM_Forall2 in E. induction E; [reflexivity|]. cbn [map]; f_equal; auto.
  rinv H; reflexivity.
Qed.

(** Deactivation *)
Definition dview (a : agent) := (a_home_location a, a_attributes a, a_timesteps_since_departure a,
  a_travelling a).

Lemma deactivate_spec S e g e' g' : deactivate S e g = Ok (e', g') ->
  (s_camps_are_sinks S = false -> e' = e) /\
  e_locations e' = e_locations e /\ e_links e' = e_links e /\
  e_par e' = e_par e /\ e_time e' = e_time e /\
  map dview (e_agents e') = map dview (e_agents e) /\
  (forall ai a, nth_error (e_agents e) ai = Some a ->
     exists a', nth_error (e_agents e') ai = Some a' /\
       (a' = a \/
        exists i l, a' = up_a_location (fun _ => PGone i) a /\ a_location a = PLoc i /\
          a_travelling a = false /\ nth_error (e_locations e) i = Some l /\ l_camp l = true)).
Proof.
  unfold deactivate; intro H. rstep H.
  2: { rinv H. repeat split; auto. intros; eexists; split; eauto. }
  split; [discriminate|].
  pose (P := fun st : eco * rng =>
    e_locations (fst st) = e_locations e /\ e_links (fst st) = e_links e /\
    e_par (fst st) = e_par e /\ e_time (fst st) = e_time e /\
    map dview (e_agents (fst st)) = map dview (e_agents e) /\
    (forall ai a, nth_error (e_agents e) ai = Some a ->
     exists a', nth_error (e_agents (fst st)) ai = Some a' /\
       (a' = a \/
        exists i l, a' = up_a_location (fun _ => PGone i) a /\ a_location a = PLoc i /\
          a_travelling a = false /\ nth_error (e_locations e) i = Some l /\ l_camp l = true))).
  change (P (e', g')). eapply (foldM_inv P); [| |exact H].
  - intros [e1 g1] ai [e2 g2] _ I1 Hs. rstep Hs. rstep Hs; [rinv Hs; assumption|].
    rstep Hs; [|discriminate|rinv Hs; assumption].
    rstep Hs. rstep Hs; [|rinv Hs; assumption]. destruct (rng_u g1). do 2 rstep Hs.
    rstep Hs; rinv Hs; [|assumption].
    destruct I1 as (A1 & A2 & A3 & A4 & A5 & A6). unfold P; cbn [fst] in *.
    do 4 (split; [assumption|]). split; [cbn; rewrite map_upd; [assumption|reflexivity]|].
    intros aj a Ha. destruct (A6 aj a Ha) as (a' & Ha' & C). cbn. rewrite nth_upd.
    destruct (Nat.eqb_spec ai aj) as [->|]; [|eauto].
    rewrite Ha'. eexists; split; [reflexivity|].
    unfold agent_of in E. rewrite Ha' in E. cbn in E. injection E as ->.
    unfold loc_of in E0. apply of_option_ok in E0. rewrite A1 in E0.
    destruct C as [->|(j & l & -> & _)]; [|discriminate].
    right. exists i, v0. auto.
  - unfold P; cbn [fst]; repeat split; auto. intros; eexists; split; eauto.
Qed.

(** Summary of evolve for one agent *)
Theorem evolve_agent_spec fuel S o e g e' g' : evolve fuel S o e g = Ok (e', g') ->
  e_time e' = (e_time e + 1)%Z /\ e_par e' = e_par e /\
  List.length (e_agents e') = List.length (e_agents e) /\
  forall ai a, nth_error (e_agents e) ai = Some a ->
    exists a', nth_error (e_agents e') ai = Some a' /\
      a_home_location a' = a_home_location a /\ a_attributes a' = a_attributes a /\
      a_timesteps_since_departure a' =
        (a_timesteps_since_departure a + (if deactivated a then 0 else 1))%Z /\
      (deactivated a = true -> a_location a' = a_location a) /\
      (deactivated a = false -> deactivated a' = true ->
         s_camps_are_sinks S = true /\
         exists i l, a_location a' = PGone i /\ nth_error (e_locations e') i = Some l /\
           l_camp l = true).
Proof.
  unfold evolve; intros H.
  rstep H. rstep H. destruct v0 as [e1 g1]. rstep H. destruct v0 as [e2 g2].
  rstep H. destruct v0 as [e3 g3]. rename H into H3. rstep H3. rename v0 into e4.
  rstep H3. rename v0 into e5. rstep H3. rename v0 into e6. cbv zeta in H3. rstep H3.
  destruct v0 as [e8 g8]. rinv H3.
  assert (T1 : Turn e e2).
  { eapply turn_trans; [eapply turn_still, still_refresh; eauto|].
    eapply turn_trans; [eapply turn_still, still_update_scores; eauto|].
    eapply turn_evolve_agents; eauto. }
  assert (T3 : Turn e3 (aggregate_arrivals S e6)).
  { eapply turn_trans with e4; [rinv E3; auto; eapply turn_still, still_write_agents; eauto|].
    eapply turn_trans with e5; [rinv E4; auto; eapply turn_still, still_write_links; eauto|].
    eapply turn_trans; [eapply turn_update_recent; eauto|].
    unfold aggregate_arrivals. destruct (0 <? s_log_camp S)%Z; auto. split; reflexivity. }
  apply finish_agents_view in E2 as (P2 & Tm2 & V2).
  apply deactivate_spec in E6 as (D0 & D1 & _ & D2 & D3 & D4 & D5).
  destruct T1 as [P1 Tm1 V1], T3 as [P3 Tm3 V3].
  set (e7 := aggregate_arrivals S e6) in *. cbn.
  split; [congruence|]. split; [congruence|].
  assert (VV : map tview (e_agents e7) = map tick (map tview (e_agents e))) by congruence.
  split.
  { apply (f_equal (@List.length _)) in D4. apply (f_equal (@List.length _)) in VV.
    rewrite !map_length in *. congruence. }
  intros ai a Ha.
  assert (H7 : nth_error (map tview (e_agents e7)) ai = Some (tick (tview a)))
    by (rewrite VV; now do 2 apply map_nth_error).
  rewrite nth_error_map in H7. destruct (nth_error (e_agents e7) ai) as [a7|] eqn:Ha7; [|discriminate].
  injection H7 as H7. destruct (D5 ai a7 Ha7) as (a' & Ha' & C).
  exists a'. split; [assumption|].
  assert (DV : dview a' = dview a7).
  { destruct C as [->|(i & l & -> & _)]; reflexivity. }
  assert (F : a_home_location a7 = a_home_location a /\ a_attributes a7 = a_attributes a /\
    a_timesteps_since_departure a7 = (a_timesteps_since_departure a + (if deactivated a then 0 else 1))%Z
    /\ gone_of a7 = gone_of a).
  { unfold tview, tick, gone_of, deactivated in *.
    destruct (a_location a); injection H7; intros; repeat split; try assumption; lia. }
  destruct F as (F1 & F2 & F3 & F4). unfold dview in DV. injection DV as DV1 DV2 DV3 DV4.
  split; [congruence|]. split; [congruence|]. split; [congruence|].
  unfold gone_of, deactivated in *. split.
  - intro G. destruct C as [->|(i & l & -> & L & _)].
    + destruct (a_location a) eqn:Ea; try discriminate. destruct (a_location a7); congruence.
    + rewrite L in F4. destruct (a_location a); discriminate.
  - intros G G'. destruct C as [->|(i & l & -> & L & _ & Hl & Hc)].
    + destruct (a_location a); try discriminate; destruct (a_location a7); discriminate.
    + split.
      * destruct (s_camps_are_sinks S) eqn:Es; [reflexivity|]. specialize (D0 eq_refl). subst e8.
        rewrite Ha7 in Ha'. injection Ha' as Ha'. apply (f_equal a_location) in Ha'. cbn in Ha'. congruence.
      * exists i, l. cbn. rewrite D1. auto.
Qed.

(** ** Serial ecosystems stay serial *)
Lemma step_par o S c e g e' g' : step o S c e g = Ok (e', g') -> e_par e' = e_par e.
Proof.
  intro H. destruct (is_evolve c) eqn:N1; [destruct c; try discriminate; now apply evolve_agent_spec in H|].
  destruct (is_clear c) eqn:N2.
  - destruct c; try discriminate. cbn in H. rstep H. rinv H. now apply clear_spec in E.
  - eapply q_par, step_quiet; eauto.
Qed.

Lemma run_par o h e g e' g' : run o h e g = Ok (e', g') -> e_par e' = e_par e.
Proof.
  unfold run; intro H. eapply (foldM_rel (fun a b => e_par (fst b) = e_par (fst a))) in H;
    [exact H|auto|intros; congruence|]. intros [] c [] _ Hs. eapply step_par; exact Hs.
Qed.

Lemma reachable_par o e g : reachable o e g -> e_par e = false.
Proof. intros (h & g0 & H). apply run_par in H. exact H. Qed.

(** A deactivated agent stays where it is *)
Lemma step_gone o S c e g e' g' ai a :
  step o S c e g = Ok (e', g') -> nth_error (e_agents e) ai = Some a -> deactivated a = true ->
  exists a', nth_error (e_agents e') ai = Some a' /\ a_location a' = a_location a.
Proof.
  intros H Ha G. destruct (is_evolve c) eqn:N1.
  - destruct c; try discriminate. apply evolve_agent_spec in H as (_ & _ & _ & H).
    destruct (H ai a Ha) as (a' & Ha' & _ & _ & _ & L & _). eauto.
  - destruct (is_clear c) eqn:N2.
    + destruct c; try discriminate. cbn in H. rstep H. rinv H.
      apply clear_spec in E as (_ & _ & _ & D). apply nth_error_In, D in Ha. congruence.
    + apply step_quiet in H as [_ _ (new & -> & _)]; auto.
      exists a; split; [|reflexivity]. rewrite nth_error_app1; [assumption|now apply nth_error_lt in Ha].
Qed.

Lemma run_gone o h : forall e g e' g' ai a,
  run o h e g = Ok (e', g') -> nth_error (e_agents e) ai = Some a -> deactivated a = true ->
  exists a', nth_error (e_agents e') ai = Some a' /\ a_location a' = a_location a.
Proof.
  induction h as [|c h IH]; intros e g e' g' ai a H Ha G; unfold run in *; cbn in H.
  - rinv H. eauto.
  - rstep H. destruct v as [e1 g1]. destruct (step_gone _ _ _ _ _ _ _ _ _ E Ha G) as (a1 & Ha1 & L1).
    destruct (IH _ _ _ _ _ _ H Ha1) as (a' & Ha' & L').
    + unfold deactivated in *. now rewrite L1.
    + exists a'. split; [assumption|congruence].
Qed.
