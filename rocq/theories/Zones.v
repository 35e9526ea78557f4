(** * Zones: camps, conflict zones, populations over histories *)

From Coq Require Import Lia Lqa.
From Verif Require Import Base State Moving Crawling Scoring Diagnostics Flee DataTable
  Spawning InputGeography Api SpecAgents SpecHistory SpecRoutes SpecTravel SpecClosures SpecZones Lemmas Inv InvMoves InvStruct Frames
  ScoreFrames Travel Closures Profile.

(** ** Relations between a location and what becomes of it *)

Section Each.
  Context (P : location -> location -> Prop).
  Definition Each (e e' : eco) : Prop :=
    forall i l, nth_error (e_locations e) i = Some l -> exists l', nth_error (e_locations e') i = Some l' /\ P l l'.
  Hypothesis Ptrans : forall a b c, P a b -> P b c -> P a c.
  Hypothesis Pprof : forall a b, profile b = profile a -> P a b.

  Lemma each_trans a b c : Each a b -> Each b c -> Each a c.
  Proof.
    intros A B i l H. destruct (A i l H) as (l1 & H1 & P1). destruct (B i l1 H1) as (l2 & H2 & P2). exists l2; eauto.
  Qed.
  Lemma each_profile e e' : map profile (e_locations e') = map profile (e_locations e) -> Each e e'.
  Proof.
    intros H i l Hl. assert (X : nth_error (map profile (e_locations e')) i = Some (profile l)) by (rewrite H; now apply map_nth_error).
    rewrite nth_error_map in X. destruct (nth_error (e_locations e') i) as [l'|]; [|discriminate].
    exists l'. split; [reflexivity|]. apply Pprof. cbn [option_map] in X. congruence.
  Qed.
  Lemma each_prof e e' : Prof e e' -> Each e e'.
  Proof. intros [_ H]. now apply each_profile. Qed.
  Lemma each_refl e : Each e e.
  Proof. apply each_prof, prof_refl. Qed.
  Lemma each_add S o n r x y lt mc cap pop f c at_ e g e' g' :
    add_location S o n r x y lt mc cap pop f c at_ e g = Ok (e', g') -> Each e e'.
  Proof.
    intro H. apply add_location_profile in H as (d & did & l0 & _ & H & _). intros i l Hl.
    assert (X : nth_error (map profile (e_locations e')) i = Some (profile l)).
    { rewrite H, nth_error_app1; [now apply map_nth_error|]. rewrite map_length. now apply nth_error_lt in Hl. }
    rewrite nth_error_map in X. destruct (nth_error (e_locations e') i) as [l'|]; [|discriminate].
    exists l'. split; [reflexivity|]. apply Pprof. cbn [option_map] in X. congruence.
  Qed.
  Lemma each_up i f e : (forall l, P l (f l)) -> Each e (up_loc i f e).
  Proof.
    intros H j l Hl. cbn [up_loc up_e_locations e_locations]. rewrite nth_upd.
    destruct (Nat.eqb i j); rewrite Hl; cbn; eexists; split; [reflexivity|apply H|reflexivity|now apply Pprof].
  Qed.
  Lemma each_cap d e : (forall f l, P l (up_l_capacity f l)) -> Each e (reduce_capacities d e).
  Proof.
    intros H j l Hl. unfold reduce_capacities. cbn [up_e_locations e_locations]. rewrite nth_error_map, Hl. cbn [option_map].
    eexists; split; [reflexivity|]. destruct (0 <? l_capacity l)%Z; [apply H|now apply Pprof].
  Qed.
End Each.

(** ** Population and agents spawned *)

Definition taken (l l' : location) : Prop := exists n, (0 <= n)%Z /\
  l_numAgentsSpawned l' = (l_numAgentsSpawned l + n)%Z /\
  l_pop l' = (if (0 <=? l_pop l)%Z then Z.max 0 (l_pop l - n) else l_pop l).

Lemma profile_pop a b : profile b = profile a -> l_pop b = l_pop a /\ l_numAgentsSpawned b = l_numAgentsSpawned a /\
  l_time_of_conflict b = l_time_of_conflict a /\ l_name b = l_name a /\ l_region b = l_region a /\ l_country b = l_country a /\
  l_foreign b = l_foreign a /\ l_x b = l_x a /\ l_y b = l_y a /\ l_attributes b = l_attributes a.
Proof.
  intro H. repeat split.
  - exact (f_equal l_pop H). - exact (f_equal l_numAgentsSpawned H). - exact (f_equal l_time_of_conflict H).
  - exact (f_equal l_name H). - exact (f_equal l_region H). - exact (f_equal l_country H).
  - exact (f_equal l_foreign H). - exact (f_equal l_x H). - exact (f_equal l_y H). - exact (f_equal l_attributes H).
Qed.
Lemma untyped_pop a b : untyped b = untyped a -> l_pop b = l_pop a /\ l_numAgentsSpawned b = l_numAgentsSpawned a /\
  l_time_of_conflict b = l_time_of_conflict a /\ l_name b = l_name a /\ l_region b = l_region a /\ l_country b = l_country a /\
  l_foreign b = l_foreign a /\ l_x b = l_x a /\ l_y b = l_y a /\ l_attributes b = l_attributes a.
Proof.
  intro H. repeat split.
  - exact (f_equal l_pop H). - exact (f_equal l_numAgentsSpawned H). - exact (f_equal l_time_of_conflict H).
  - exact (f_equal l_name H). - exact (f_equal l_region H). - exact (f_equal l_country H).
  - exact (f_equal l_foreign H). - exact (f_equal l_x H). - exact (f_equal l_y H). - exact (f_equal l_attributes H).
Qed.

Lemma taken_trans a b c : taken a b -> taken b c -> taken a c.
Proof.
  intros (n & N & A1 & A2) (m & M & B1 & B2). exists (n + m)%Z. split; [lia|]. split; [lia|].
  destruct (0 <=? l_pop a)%Z eqn:E; [|rewrite A2, E in B2; congruence].
  assert (0 <=? l_pop b = true)%Z as X by (rewrite A2; lia). rewrite X in B2. lia.
Qed.
Lemma taken_same a b : l_pop b = l_pop a -> l_numAgentsSpawned b = l_numAgentsSpawned a -> taken a b.
Proof. intros P N. exists 0%Z. split; [lia|]. split; [lia|]. rewrite P. destruct (0 <=? l_pop a)%Z eqn:E; lia. Qed.
Lemma taken_prof a b : profile b = profile a -> taken a b.
Proof. intro H. apply profile_pop in H. apply taken_same; apply H. Qed.
Lemma taken_take l : taken l (take l).
Proof.
  exists 1%Z. split; [lia|]. unfold take. destruct (0 <? l_pop l)%Z eqn:E; cbn; split; try reflexivity;
    destruct (0 <=? l_pop l)%Z eqn:E'; lia.
Qed.

Lemma step_taken o S c e g e' g' : step o S c e g = Ok (e', g') -> Each taken e e'.
Proof.
  intro H. destruct (is_evolve c) eqn:V.
  - destruct c; try discriminate. cbn [step] in H. apply evolve_profile in H as [H _]. apply each_profile; [exact taken_prof|exact H].
  - eapply (step_profile S (Each taken)); [..|exact V|exact H].
    + apply each_trans, taken_trans.
    + intros a b X. apply each_prof; [exact taken_prof|now apply prof_of].
    + intros; eapply each_add; [apply taken_prof|eauto].
    + intros i e0 _. apply each_up; [apply taken_prof|apply taken_take].
    + intros i f e0 Hf. apply each_up; [apply taken_prof|]. intro l. specialize (Hf l). apply untyped_pop in Hf. apply taken_same; apply Hf.
    + intros i e0. apply each_up; [apply taken_prof|]. intro l. apply taken_same; reflexivity.
    + intros d e0. apply each_cap; [apply taken_prof|]. intros f l. apply taken_same; reflexivity.
Qed.

Theorem population o h : forall e g e' g' i l, run o h e g = Ok (e', g') -> nth_error (e_locations e) i = Some l ->
  exists l' n, nth_error (e_locations e') i = Some l' /\ (0 <= n)%Z /\
    l_numAgentsSpawned l' = (l_numAgentsSpawned l + n)%Z /\
    (0 <= l_pop l -> l_pop l' = Z.max 0 (l_pop l - n))%Z.
Proof.
  intros e g e' g' i l H. assert (X : Each taken e e').
  { unfold run in H. eapply (foldM_rel (fun s s' => Each taken (fst s) (fst s'))) in H; [exact H|..].
    - intro s. apply each_refl, taken_prof.
    - intros a b c A B. eapply each_trans; eauto using taken_trans.
    - intros [e1 g1] [S c] [e2 g2] _ Hs. cbn [fst snd] in *. eapply step_taken; eauto. }
  intro Hl. destruct (X i l Hl) as (l' & Hl' & n & N & A & B). exists l', n. repeat split; auto.
  intro P. rewrite B. destruct (0 <=? l_pop l)%Z eqn:E; lia.
Qed.

(** Without [take_from_population] *)
Definition unspent (l l' : location) : Prop := l_pop l' = l_pop l /\ l_numAgentsSpawned l' = l_numAgentsSpawned l.
Lemma unspent_trans a b c : unspent a b -> unspent b c -> unspent a c.
Proof. unfold unspent; intuition congruence. Qed.
Lemma unspent_prof a b : profile b = profile a -> unspent a b.
Proof. intro H. apply profile_pop in H. split; apply H. Qed.
Lemma step_unspent o S c e g e' g' : s_TakeFromPopulation S = false -> step o S c e g = Ok (e', g') -> Each unspent e e'.
Proof.
  intros T H. destruct (is_evolve c) eqn:V.
  - destruct c; try discriminate. cbn [step] in H. apply evolve_profile in H as [H _]. apply each_profile; [exact unspent_prof|exact H].
  - eapply (step_profile S (Each unspent)); [..|exact V|exact H].
    + apply each_trans, unspent_trans.
    + intros a b X. apply each_prof; [exact unspent_prof|now apply prof_of].
    + intros; eapply each_add; [apply unspent_prof|eauto].
    + intros i e0 T'. congruence.
    + intros i f e0 Hf. apply each_up; [apply unspent_prof|]. intro l. specialize (Hf l). apply untyped_pop in Hf. split; apply Hf.
    + intros i e0. apply each_up; [apply unspent_prof|]. intro l. split; reflexivity.
    + intros d e0. apply each_cap; [apply unspent_prof|]. intros f l. split; reflexivity.
Qed.
Theorem population_kept o h : forall e g e' g' i l, (forall S c, In (S, c) h -> s_TakeFromPopulation S = false) ->
  run o h e g = Ok (e', g') -> nth_error (e_locations e) i = Some l ->
  exists l', nth_error (e_locations e') i = Some l' /\ l_pop l' = l_pop l /\ l_numAgentsSpawned l' = l_numAgentsSpawned l.
Proof.
  intros e g e' g' i l T H. assert (X : Each unspent e e').
  { unfold run in H. eapply (foldM_rel (fun s s' => Each unspent (fst s) (fst s'))) in H; [exact H|..].
    - intro s. apply each_refl, unspent_prof.
    - intros a b c A B. eapply each_trans; eauto using unspent_trans.
    - intros [e1 g1] [S c] [e2 g2] Hin Hs. cbn [fst snd] in *. eapply step_unspent; eauto. }
  apply X.
Qed.

(** ** Identity of locations *)

Definition same_place (l l' : location) : Prop :=
  l_name l' = l_name l /\ l_region l' = l_region l /\ l_country l' = l_country l /\ l_foreign l' = l_foreign l /\
  l_x l' = l_x l /\ l_y l' = l_y l /\ l_attributes l' = l_attributes l.
Lemma same_place_trans a b c : same_place a b -> same_place b c -> same_place a c.
Proof. unfold same_place; intuition congruence. Qed.
Lemma same_place_prof a b : profile b = profile a -> same_place a b.
Proof. intro H. apply profile_pop in H. unfold same_place. intuition. Qed.
Lemma step_places o S c e g e' g' : step o S c e g = Ok (e', g') -> Each same_place e e'.
Proof.
  intro H. destruct (is_evolve c) eqn:V.
  - destruct c; try discriminate. cbn [step] in H. apply evolve_profile in H as [H _]. apply each_profile; [exact same_place_prof|exact H].
  - eapply (step_profile S (Each same_place)); [..|exact V|exact H].
    + apply each_trans, same_place_trans.
    + intros a b X. apply each_prof; [exact same_place_prof|now apply prof_of].
    + intros; eapply each_add; [apply same_place_prof|eauto].
    + intros i e0 _. apply each_up; [apply same_place_prof|]. intro l. unfold take, same_place. destruct (0 <? l_pop l)%Z; repeat split.
    + intros i f e0 Hf. apply each_up; [apply same_place_prof|]. intro l. specialize (Hf l). apply untyped_pop in Hf. unfold same_place. intuition.
    + intros i e0. apply each_up; [apply same_place_prof|]. intro l. repeat split.
    + intros d e0. apply each_cap; [apply same_place_prof|]. intros f l. repeat split.
Qed.
Theorem places_stay o h : forall e g e' g' i l, run o h e g = Ok (e', g') -> nth_error (e_locations e) i = Some l ->
  exists l', nth_error (e_locations e') i = Some l' /\
  l_name l' = l_name l /\ l_region l' = l_region l /\ l_country l' = l_country l /\ l_foreign l' = l_foreign l /\
  l_x l' = l_x l /\ l_y l' = l_y l /\ l_attributes l' = l_attributes l.
Proof.
  intros e g e' g' i l H. assert (X : Each same_place e e').
  { unfold run in H. eapply (foldM_rel (fun s s' => Each same_place (fst s) (fst s'))) in H; [exact H|..].
    - intro s. apply each_refl, same_place_prof.
    - intros a b c A B. eapply each_trans; eauto using same_place_trans.
    - intros [e1 g1] [S c] [e2 g2] _ Hs. cbn [fst snd] in *. eapply step_places; eauto. }
  apply X.
Qed.

(** ** Conflicts do not start in the future *)

Definition Timed (e : eco) : Prop := (0 <= e_time e)%Z /\
  forall l, In l (e_locations e) -> (l_time_of_conflict l <= e_time e)%Z.
Definition TimedTo (e e' : eco) : Prop := e_time e' = e_time e /\ (Timed e -> Timed e').

Lemma timed_profile e ls' t : (e_time e <= t)%Z -> map profile ls' = map profile (e_locations e) -> Timed e ->
  (0 <= t)%Z /\ forall l, In l ls' -> (l_time_of_conflict l <= t)%Z.
Proof.
  intros T H [T0 X]. split; [lia|]. intros l Hl. apply (in_map profile) in Hl. rewrite H in Hl.
  apply in_map_iff in Hl as (l0 & E & Hl0). apply profile_pop in E. specialize (X l0 Hl0). destruct E as (_ & _ & E & _). lia.
Qed.
Lemma timed_up i f e : (forall l, (l_time_of_conflict l <= e_time e -> l_time_of_conflict (f l) <= e_time e)%Z) -> TimedTo e (up_loc i f e).
Proof.
  intro H. split; [reflexivity|]. intros [T X]. split; [exact T|]. intros l Hl. cbn [up_loc up_e_locations e_locations e_time] in *.
  apply In_upd in Hl. destruct Hl as [Hl|(a & Ha & ->)]; auto. apply H, X. eapply nth_error_In; eauto.
Qed.
Lemma step_timed o S c e g e' g' : step o S c e g = Ok (e', g') -> Timed e -> Timed e'.
Proof.
  intros H. destruct (is_evolve c) eqn:V.
  - destruct c; try discriminate. cbn [step] in H. apply evolve_profile in H as [H T]. intro X.
    apply (timed_profile e (e_locations e') (e_time e')); [lia|exact H|exact X].
  - enough (X : TimedTo e e') by apply X. eapply (step_profile S TimedTo); [..|exact V|exact H].
    + intros a b d [A1 A2] [B1 B2]. split; [congruence|auto].
    + intros a b X. apply prof_of in X as [A1 A2]. split; [exact A1|]. intro T. red. rewrite A1. apply (timed_profile a); [lia|exact A2|exact T].
    + intros o0 n r x y lt mc cap pop f c0 at_ e0 g0 e1 g1 H0. apply add_location_profile in H0 as (d & did & l0 & N & L & T).
      split; [exact T|]. intros [T0 X]. split; [lia|]. intros l Hl. apply (in_map profile) in Hl. rewrite L in Hl.
      apply in_app_or in Hl as [Hl|[Hl|[]]].
      * apply in_map_iff in Hl as (l1 & E & Hl1). apply profile_pop in E. specialize (X l1 Hl1). destruct E as (_ & _ & E & _). lia.
      * apply new_location_fresh in N. symmetry in Hl. apply profile_pop in Hl. destruct N as [N _]. destruct Hl as (_ & _ & E & _). lia.
    + intros i e0 _. apply timed_up. intros l Hl. unfold take. destruct (0 <? l_pop l)%Z; exact Hl.
    + intros i f e0 Hf. apply timed_up. intros l Hl. specialize (Hf l). apply untyped_pop in Hf. destruct Hf as (_ & _ & E & _). lia.
    + intros i e0. apply timed_up. intros l Hl. cbn. lia.
    + intros d e0. split; [reflexivity|]. intros [T X]. split; [exact T|]. intros l Hl. unfold reduce_capacities in Hl. cbn [up_e_locations e_locations] in Hl.
      apply in_map_iff in Hl as (l0 & <- & Hl0). specialize (X l0 Hl0). cbn. destruct (0 <? l_capacity l0)%Z; exact X.
Qed.
Theorem reachable_timed o e g : reachable o e g -> Timed e.
Proof.
  intros (h & g0 & H). unfold run in H.
  eapply (foldM_inv (fun s => Timed (fst s))) in H; [exact H|..].
  - intros [e1 g1] [S c] [e2 g2] _ T Hs. cbn [fst snd] in *. eapply step_timed; eauto.
  - split; [cbn; lia|]. intros l [].
Qed.
