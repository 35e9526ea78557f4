(** * InvMoves: moving, adding and deactivating agents preserve the invariant *)

From Coq Require Import Lia.
From Verif Require Import Base State Moving Crawling Scoring Diagnostics Flee DataTable
  Spawning InputGeography Api SpecAgents Lemmas Inv.

Lemma map_upd2 {A B} (g : A -> B) n f h l :
  (forall a, g (f a) = h (g a)) -> map g (upd n f l) = upd n h (map g l).
Proof. intro H; revert n; induction l; destruct n; cbn; congruence. Qed.

Lemma upd_upd {A} n (f g : A -> A) l : upd n f (upd n g l) = upd n (fun a => f (g a)) l.
Proof. revert n; induction l; destruct n; cbn; congruence. Qed.

Lemma upd_ext {A} n (f g : A -> A) l :
  (forall a, nth_error l n = Some a -> f a = g a) -> upd n f l = upd n g l.
Proof.
  revert n; induction l; destruct n; cbn; intros; f_equal; auto.
Qed.

(** Effects of leaving and entering a place on the counters *)
Definition lpos (d : Z) (p : pos) (l : list Z) : list Z :=
  match p with PLoc i => upd i (fun z => z + d)%Z l | _ => l end.
Definition kpos (d : Z) (p : pos) (l : list Z) : list Z :=
  match p with PLink i => upd i (fun z => z + d)%Z l | _ => l end.

Lemma lhead_add par d l : lhead par (loc_add par d l) = (lhead par l + d)%Z.
Proof. unfold lhead, loc_add; destruct par; reflexivity. Qed.
Lemma lstruct_add par d l : lstruct (loc_add par d l) = lstruct l.
Proof. unfold loc_add; destruct par; reflexivity. Qed.
Lemma khead_dec par k : khead par (link_dec par k) = (khead par k + -1)%Z.
Proof. unfold khead, link_dec; destruct par; cbn; lia. Qed.
Lemma kstruct_dec par k : kstruct (link_dec par k) = kstruct k.
Proof. unfold link_dec; destruct par; reflexivity. Qed.
Lemma kcum_dec par k : k_cumNumAgents (link_dec par k) = k_cumNumAgents k.
Proof. unfold link_dec; destruct par; reflexivity. Qed.

Lemma link_inc_spec S par attrs k k' : link_inc S par attrs k = Ok k' ->
  kstruct k' = kstruct k /\ khead par k' = (khead par k + 1)%Z /\
  k_cumNumAgents k' = (k_cumNumAgents k + 1)%Z /\ k_distance k' = k_distance k.
Proof.
  unfold link_inc; intro H; rinv H; destruct par; repeat split; reflexivity.
Qed.

Record Counters (e e' : eco) (fl fk fc : list Z -> list Z) : Prop := {
  c_struct : SameStruct e e';
  c_lheads : lheads e' = fl (lheads e);
  c_kheads : kheads e' = fk (kheads e);
  c_cums : map k_cumNumAgents (e_links e') = fc (map k_cumNumAgents (e_links e)) }.

Lemma dec_at_spec p e e' : dec_at p e = Ok e' ->
  Counters e e' (lpos (-1) p) (kpos (-1) p) (fun l => l) /\
  e_agents e' = e_agents e /\
  match p with
  | PLoc i => (i < List.length (e_locations e))%nat
  | PLink k => (k < List.length (e_links e))%nat
  | PGone _ => False
  end.
Proof.
  unfold dec_at; intro H. destruct p as [i|k|i]; rinv H; try discriminate.
  - apply of_option_ok, nth_error_lt in E. split; [|split; [reflexivity|assumption]].
    split; [split; try reflexivity|..]; cbn; auto.
    + apply map_upd, lstruct_add.
    + unfold lheads; cbn. now apply map_upd2; intro; apply lhead_add.
  - apply of_option_ok, nth_error_lt in E. split; [|split; [reflexivity|assumption]].
    split; [split; try reflexivity|..]; cbn; auto.
    + apply map_upd, kstruct_dec.
    + unfold kheads; cbn. now apply map_upd2; intro; apply khead_dec.
    + apply map_upd, kcum_dec.
Qed.

Lemma upd_const {A} n (a b : A) l : nth_error l n = Some a -> upd n (fun _ => b) l = upd n (fun x => b) l.
Proof. reflexivity. Qed.

Lemma map_upd_at {A B} (g : A -> B) n b h l a :
  nth_error l n = Some a -> g b = h (g a) -> map g (upd n (fun _ => b) l) = upd n h (map g l).
Proof.
  revert n; induction l as [|x l IH]; intros [|n] H E; try discriminate; cbn in *.
  - injection H as ->. now rewrite E.
  - f_equal; auto.
Qed.

Lemma upd_same {A} n (l : list A) a : nth_error l n = Some a -> upd n (fun _ => a) l = l.
Proof. revert n; induction l; destruct n; cbn; intros; try discriminate; f_equal; auto; congruence. Qed.

Lemma upd_id {A} n (l : list A) : upd n (fun x => x) l = l.
Proof. revert n; induction l; destruct n; cbn; f_equal; auto. Qed.

Lemma inc_at_spec S attrs p e e' : inc_at S attrs p e = Ok e' ->
  Counters e e' (lpos 1 p) (kpos 1 p) (kpos 1 p) /\
  e_agents e' = e_agents e /\
  match p with
  | PLoc i => (i < List.length (e_locations e))%nat
  | PLink k => (k < List.length (e_links e))%nat
  | PGone _ => False
  end.
Proof.
  unfold inc_at; intro H. destruct p as [i|k|i]; rinv H; try discriminate.
  - apply of_option_ok, nth_error_lt in E. split; [|split; [reflexivity|assumption]].
    split; [split; try reflexivity|..]; cbn; auto.
    + apply map_upd, lstruct_add.
    + unfold lheads; cbn. now apply map_upd2; intro; apply lhead_add.
  - apply of_option_ok in E. pose proof (nth_error_lt _ _ _ E) as L.
    apply link_inc_spec in E0 as (K1 & K2 & K3 & _).
    split; [|split; [reflexivity|assumption]].
    split; [split; try reflexivity|..]; cbn.
    + rewrite (map_upd_at kstruct k v0 (fun x => x) _ v) by assumption. apply upd_id.
    + reflexivity.
    + unfold kheads; cbn. now apply map_upd_at with (a := v).
    + now apply map_upd_at with (a := v).
Qed.

Definition relocate (p : pos) (tr : bool) (a : agent) : agent :=
  up_a_distance_travelled_on_link (fun _ => 0%Q)
    (up_a_travelling (fun _ => tr) (up_a_location (fun _ => p) a)).

Lemma handle_travel_spec S ai p tr e e' : handle_travel S ai p tr e = Ok e' ->
  exists a, nth_error (e_agents e) ai = Some a /\
  Counters e e' (fun l => lpos 1 p (lpos (-1) (a_location a) l))
    (fun l => kpos 1 p (kpos (-1) (a_location a) l)) (kpos 1 p) /\
  e_agents e' = upd ai (relocate p tr) (e_agents e) /\
  (forall i, a_location a <> PGone i) /\
  match p with
  | PLoc i => (i < List.length (e_locations e))%nat
  | PLink k => (k < List.length (e_links e))%nat
  | PGone _ => False
  end.
Proof.
  unfold handle_travel, agent_of; intro H. rstep H. apply of_option_ok in E.
  rstep H. cbv zeta in H. rstep H. rinv H.
  apply dec_at_spec in E0 as (C0 & A0 & R0).
  apply inc_at_spec in E1 as (C1 & A1 & R1).
  exists v; split; [assumption|].
  destruct C0 as [[P0 N0 L0 K0 D0 W0] H0 J0 M0], C1 as [[P1 N1 L1 K1 D1 W1] H1 J1 M1].
  cbn in *. unfold lheads, kheads in *; cbn in *.
  split; [|split; [|split]].
  - split; [split; cbn; try congruence; try lia|..]; unfold lheads, kheads; cbn; congruence.
  - rewrite A1, A0, upd_upd. reflexivity.
  - intros i F; rewrite F in R0; assumption.
  - destruct p.
    + rewrite (map_eq_length _ _ _ _ L0) in R1. assumption.
    + rewrite (map_eq_length _ _ _ _ K0) in R1. assumption.
    + assumption.
Qed.

(** Where an agent may be put *)
Definition dest_ok (e : eco) (p : pos) (tr : bool) : Prop :=
  match p with
  | PLoc i => tr = false
  | PLink k => tr = true /\
      (forall i l, nth_error (e_locations e) i = Some l -> ~ In k (l_closed_links l))
  | PGone _ => False
  end.

Lemma In_upd {A} n (f : A -> A) l b :
  In b (upd n f l) -> In b l \/ exists a, nth_error l n = Some a /\ b = f a.
Proof.
  intro H; apply In_nth_error in H as [m Hm]. rewrite nth_upd in Hm.
  destruct (Nat.eqb_spec n m) as [->|].
  - destruct (nth_error l m) as [a|] eqn:E; [|discriminate].
    right; exists a; split; [reflexivity|]. injection Hm; auto.
  - left; eapply nth_error_In; eauto.
Qed.

Lemma nth_lpos d p l i z : nth_error (lpos d p l) i = Some z ->
  exists z0, nth_error l i = Some z0 /\
    z = (z0 + match p with PLoc j => if Nat.eqb j i then d else 0 | _ => 0 end)%Z.
Proof.
  destruct p as [j|j|j]; cbn; intro H; try (exists z; split; [assumption|lia]).
  rewrite nth_upd in H. destruct (Nat.eqb j i) eqn:E.
  - destruct (nth_error l i); [|discriminate]. injection H; eauto.
  - exists z; split; [assumption|lia].
Qed.
Lemma nth_kpos d p l i z : nth_error (kpos d p l) i = Some z ->
  exists z0, nth_error l i = Some z0 /\
    z = (z0 + match p with PLink j => if Nat.eqb j i then d else 0 | _ => 0 end)%Z.
Proof.
  destruct p as [j|j|j]; cbn; intro H; try (exists z; split; [assumption|lia]).
  rewrite nth_upd in H. destruct (Nat.eqb j i) eqn:E.
  - destruct (nth_error l i); [|discriminate]. injection H; eauto.
  - exists z; split; [assumption|lia].
Qed.

Lemma inv_handle_travel S ai p tr e e' :
  Inv e -> dest_ok e p tr -> handle_travel S ai p tr e = Ok e' -> Inv e'.
Proof.
  intros I D H. apply handle_travel_spec in H as (a & Ha & [SS HL HK HC] & HA & NG & R).
  destruct I as [I1 I2 I3 I4 I5 I6].
  pose proof (map_eq_length _ _ _ _ (ss_locs _ _ SS)) as Ll.
  pose proof (map_eq_length _ _ _ _ (ss_links _ _ SS)) as Lk.
  split.
  - eapply struct_same; eauto.
  - intros b Hb. rewrite HA in Hb. apply In_upd in Hb as [Hb|(a0 & E0 & ->)].
    + specialize (I2 b Hb). unfold agent_ok in *. now rewrite Ll, Lk.
    + rewrite Ha in E0; injection E0 as <-. apply nth_error_In in Ha. specialize (I2 _ Ha).
      unfold agent_ok, relocate in *; cbn in *. rewrite Ll, Lk. split; [tauto|].
      destruct p; cbn in D; tauto.
  - intros i l ki b Hi Hki Hb.
    destruct (map_eq_nth lstruct lstruct (e_locations e) _ i l (eq_sym (ss_locs _ _ SS)) Hi)
      as (l0 & Hi0 & F). injection F as F1 F2 F3 F4. rewrite <- F3 in Hki.
    rewrite HA in Hb. apply In_upd in Hb as [Hb|(a0 & E0 & ->)]; [eauto|].
    cbn. intros ->. cbn in D. destruct D as [_ D]. now apply (D i l0).
  - intros i z Hz. rewrite HL in Hz. apply nth_lpos in Hz as (z1 & Hz & ->).
    apply nth_lpos in Hz as (z0 & Hz & ->). apply I4 in Hz. subst z0.
    rewrite HA, (countZ_upd _ _ _ _ _ Ha).
    assert (E : stays i a = match a_location a with PLoc j => Nat.eqb j i | _ => false end).
    { unfold stays, in_location, left_from. destruct (a_location a) eqn:Ea; auto.
      - now rewrite orb_false_r. - now destruct (NG i0). }
    assert (E2 : stays i (relocate p tr a) = match p with PLoc j => Nat.eqb j i | _ => false end).
    { unfold stays, in_location, left_from, relocate; cbn. destruct p; auto; [now rewrite orb_false_r|easy]. }
    rewrite E, E2. destruct (a_location a), p; cbn;
      repeat match goal with |- context [Nat.eqb ?x ?y] => destruct (Nat.eqb x y) end; lia.
  - intros i z Hz. rewrite HK in Hz. apply nth_kpos in Hz as (z1 & Hz & ->).
    apply nth_kpos in Hz as (z0 & Hz & ->). apply I5 in Hz. subst z0.
    rewrite HA, (countZ_upd _ _ _ _ _ Ha). unfold on_link, relocate; cbn.
    destruct (a_location a), p; cbn;
      repeat match goal with |- context [Nat.eqb ?x ?y] => destruct (Nat.eqb x y) end; lia.
  - intros k Hk. apply In_nth_error in Hk as [i Hi].
    assert (Hc : nth_error (map k_cumNumAgents (e_links e')) i = Some (k_cumNumAgents k))
      by now apply map_nth_error.
    assert (Hh : nth_error (kheads e') i = Some (khead (e_par e') k))
      by (unfold kheads; now apply map_nth_error).
    rewrite HC in Hc. rewrite HK in Hh.
    apply nth_kpos in Hc as (c0 & Hc & ->). apply nth_kpos in Hh as (h1 & Hh & ->).
    apply nth_kpos in Hh as (h0 & Hh & ->).
    unfold kheads in Hh. rewrite nth_error_map in Hh, Hc.
    destruct (nth_error (e_links e) i) as [k0|] eqn:E; [|discriminate]. cbn in *.
    injection Hh as <-. injection Hc as <-.
    apply nth_error_In in E. specialize (I6 _ E).
    destruct (a_location a), p; cbn;
      repeat match goal with |- context [Nat.eqb ?x ?y] => destruct (Nat.eqb x y) end; lia.
Qed.

(** ** Person *)

Lemma take_next_step_in S e route links k rest :
  take_next_step S e route links = Ok (Some k, rest) -> In k links.
Proof.
  induction links as [|ki links IH]; cbn; intro H; [rinv H; discriminate|].
  do 2 rstep H. destruct route as [[|r0 r]|]; try discriminate.
  rstep H; [|right; auto]. rstep H. rstep H; rinv H; [discriminate|]. now left.
Qed.

(** The possible effects of [Person.evolve] on agent [ai] *)
Lemma person_evolve_spec S o t f ai e g e' g' :
  person_evolve S o t f ai e g = Ok (e', g') ->
  e' = e \/
  exists a i l rest, nth_error (e_agents e) ai = Some a /\ a_travelling a = false /\
    a_location a = PLoc i /\ nth_error (e_locations e) i = Some l /\
    (e' = up_agent ai (up_a_route (fun _ => Some rest)) e \/
     exists ki, In ki (l_links l) /\
       handle_travel S ai (PLink ki) true (up_agent ai (up_a_route (fun _ => Some rest)) e) = Ok e').
Proof.
  unfold person_evolve, agent_of, loc_of; intro H. rstep H. apply of_option_ok in E.
  rstep H; [rinv H; auto|]. rstep H; try discriminate.
  rstep H. apply of_option_ok in E0. rstep H. destruct (rng_u g) as [u g1].
  rstep H; [|rinv H; auto].
  rstep H. destruct v2 as [route g2]. rstep H. destruct v2 as [dest rest]. cbv zeta in H.
  right; exists v, i, v0, rest. do 4 (split; [assumption|]).
  destruct dest as [ki|]; [|rinv H; auto].
  rstep H. rinv H. right; exists ki; split; [|assumption].
  eapply take_next_step_in; eauto.
Qed.

Lemma open_dest_ok e i l ki : Struct e -> nth_error (e_locations e) i = Some l ->
  In ki (l_links l) -> dest_ok e (PLink ki) true.
Proof.
  intros ST Hl Hin; split; [reflexivity|]. intros j l' Hj Hc.
  destruct (st_loc _ ST i l Hl) as (_ & _ & _ & O & _).
  destruct (st_loc _ ST j l' Hj) as (_ & _ & _ & _ & C).
  destruct (O ki Hin) as (k & K1 & _ & K2). destruct (C ki Hc) as (k' & K1' & _ & K2').
  congruence.
Qed.

Lemma same_route ai r e : Same e (up_agent ai (up_a_route (fun _ => r)) e).
Proof. apply same_up_agent; reflexivity. Qed.

Lemma dest_ok_same e e' p tr : SameStruct e e' -> dest_ok e p tr -> dest_ok e' p tr.
Proof.
  intros SS; destruct p; cbn; auto. intros [H1 H2]; split; [assumption|].
  intros i l Hi.
  destruct (map_eq_nth lstruct lstruct (e_locations e) _ i l (eq_sym (ss_locs _ _ SS)) Hi)
    as (l0 & Hi0 & F). injection F as F1 F2 F3 F4. rewrite <- F3; eauto.
Qed.

Lemma inv_person_evolve S o t f ai e g e' g' :
  Inv e -> person_evolve S o t f ai e g = Ok (e', g') -> Inv e'.
Proof.
  intros I H. apply person_evolve_spec in H as [->|(a & i & l & rest & Ha & _ & _ & Hl & H)]; auto.
  destruct H as [->|(ki & Hin & H)].
  - eapply inv_same; eauto using same_route.
  - eapply inv_handle_travel; [| |exact H].
    + eapply inv_same; eauto using same_route.
    + eapply dest_ok_same; [apply same_route|]. eapply open_dest_ok; eauto using i_struct.
Qed.

Lemma inv_finish_travel fuel S o t ai e g e' g' :
  Inv e -> finish_travel fuel S o t ai e g = Ok (e', g') -> Inv e'.
Proof.
  revert e g; induction fuel as [|fuel IH]; intros e g I H; cbn [finish_travel] in H;
    unfold agent_of in H; rstep H; apply of_option_ok in E; (rstep H; [rinv H; auto|]);
    [discriminate|].
  rstep H; try discriminate. rstep H. rstep H. destruct v1 as [speed g1]. cbv zeta in H.
  match type of H with context [up_agent ai ?f e] =>
    assert (S1 : Same e (up_agent ai f e)) by (apply same_up_agent; reflexivity) end.
  match type of S1 with Same e ?x => set (e1 := x) in * end.
  assert (I1 : Inv e1) by (eapply inv_same; eauto).
  rstep H; [|rinv H; assumption].
  match type of H with context [up_agent ai ?f e1] =>
    assert (S2 : Same e1 (up_agent ai f e1))
      by (apply same_up_agent; intro; destruct (0 <? s_log_agent S)%Z; reflexivity) end.
  match type of S2 with Same e1 ?x => set (e2 := x) in * end.
  assert (I2 : Inv e2) by (eapply inv_same; eauto).
  rstep H.
  - rstep H. rinv H. eapply inv_handle_travel; [exact I2| |eassumption]. reflexivity.
  - rstep H.
    assert (I3 : Inv v1).
    { eapply inv_handle_travel; [| |eassumption]; [|reflexivity].
      match goal with |- context [if ?b then _ else _] => destruct b end; [|assumption].
      eapply inv_same; [|exact I2]. apply same_up_agent; reflexivity. }
    rstep H.
    match type of H with (if ?b then _ else _) = _ => destruct b end.
    + rstep H. rstep H. destruct v4 as [e6 g2]. eapply IH; [|exact H].
      eapply inv_person_evolve; [|eassumption].
      match goal with |- context [if ?b then _ else _] => destruct b end; [|assumption].
      eapply inv_same; [|exact I3]. apply same_up_loc; lsimpl.
    + rinv H.
      match goal with |- context [if ?b then _ else _] => destruct b end; [|assumption].
      eapply inv_same; [|exact I3]. apply same_up_loc; lsimpl.
Qed.

(** ** Adding agents *)

Lemma count_app_one f l (a : agent) :
  countZ f (l ++ [a]) = (countZ f l + if f a then 1 else 0)%Z.
Proof. rewrite countZ_app, countZ_cons. unfold countZ; cbn [filter List.length]. lia. Qed.

Lemma inv_append_agent i attrs e e' : Inv e -> append_agent i attrs e = Ok e' -> Inv e'.
Proof.
  unfold append_agent, loc_of; intros I H; rinv H. apply of_option_ok in E.
  pose proof (nth_error_lt _ _ _ E) as L.
  destruct I as [I1 I2 I3 I4 I5 I6].
  assert (SS : SameStruct e (up_loc i (loc_add (e_par e) 1)
                 (up_e_agents (fun l => l ++ [new_agent i attrs]) e))).
  { split; try reflexivity. cbn. apply map_upd, lstruct_add. }
  split.
  - eapply struct_same; eauto.
  - cbn. intros a Ha. apply in_app_or in Ha as [Ha|[<-|[]]].
    + specialize (I2 a Ha). unfold agent_ok in *; cbn. now rewrite upd_length.
    + unfold agent_ok; cbn. rewrite upd_length. auto.
  - cbn. intros j l ki a Hj Hki Ha.
    apply in_app_or in Ha as [Ha|[<-|[]]]; [|discriminate].
    rewrite nth_upd in Hj. destruct (Nat.eqb_spec i j) as [<-|]; [|eauto].
    rewrite E in Hj; injection Hj as <-. apply I3 with (i := i) (l := v); auto.
    unfold loc_add in Hki; destruct (e_par e); exact Hki.
  - intros j z Hz. unfold lheads in Hz; cbn in Hz.
    rewrite (map_upd2 _ _ _ (fun z => z + 1)%Z) in Hz by (intro; apply lhead_add).
    rewrite nth_upd in Hz. cbn. rewrite count_app_one. unfold stays at 2, in_location, left_from; cbn.
    rewrite orb_false_r.
    destruct (Nat.eqb i j) eqn:Ej.
    + destruct (nth_error (map (lhead (e_par e)) (e_locations e)) j) eqn:En; [|discriminate].
      injection Hz as <-. now rewrite <- (I4 j z0 En).
    + rewrite <- (I4 j z Hz). lia.
  - intros k z Hz. cbn. rewrite count_app_one. unfold on_link at 2; cbn. rewrite (I5 k z Hz). lia.
  - exact I6.
Qed.

Lemma same_pop f g i e : Same e (up_loc i (fun l => up_l_numAgentsSpawned f (g l)) e) ->
  Same e (up_loc i (fun l => up_l_numAgentsSpawned f (g l)) e).
Proof. auto. Qed.

Lemma inv_add_agent S i attrs e e' : Inv e -> add_agent S i attrs e = Ok e' -> Inv e'.
Proof.
  unfold add_agent; intros I H; rstep H. cbv zeta in H.
  eapply inv_append_agent; [|exact H]. destruct (s_TakeFromPopulation S); [|assumption].
  eapply inv_same; [|exact I]. apply same_up_loc; lsimpl.
Qed.

Lemma inv_foldM {A} (f : eco -> A -> res eco) l e e' :
  (forall e a e', Inv e -> f e a = Ok e' -> Inv e') -> Inv e -> foldM f l e = Ok e' -> Inv e'.
Proof. intros Hf I H; eapply (foldM_inv Inv); eauto. Qed.

Lemma inv_foldM2 {A} (f : eco * rng -> A -> res (eco * rng)) l e g e' g' :
  (forall e g a e' g', Inv e -> f (e, g) a = Ok (e', g') -> Inv e') ->
  Inv e -> foldM f l (e, g) = Ok (e', g') -> Inv e'.
Proof.
  intros Hf I H. eapply (foldM_inv (fun s => Inv (fst s))) in H; auto.
  intros [e1 g1] a [e2 g2] _ I1 H1. cbn in *; eauto.
Qed.

Lemma inv_insert_agents i n e e' : Inv e -> insert_agents i n e = Ok e' -> Inv e'.
Proof.
  intros I H; eapply inv_foldM; [|exact I|exact H]. cbn; intros; eapply inv_append_agent; eauto.
Qed.

Lemma inv_spawn_one S dm t i e g e' g' :
  Inv e -> spawn_one S dm t i (e, g) = Ok (e', g') -> Inv e'.
Proof.
  unfold spawn_one; intros I H. do 2 rstep H. destruct v0. rstep H. rinv H.
  destruct t; [eapply inv_add_agent | eapply inv_append_agent]; eauto.
Qed.

Lemma inv_spawn_n S dm t i n e g e' g' :
  Inv e -> spawn_n S dm t i n (e, g) = Ok (e', g') -> Inv e'.
Proof.
  intros I H; eapply inv_foldM2; [|exact I|exact H]. cbn; intros; eapply inv_spawn_one; eauto.
Qed.

Lemma inv_initial S dm d i e g e' g' :
  Inv e -> add_initial_refugees S dm d i e g = Ok (e', g') -> Inv e'.
Proof.
  unfold add_initial_refugees; intros I H. rstep H; [rinv H; auto|]. do 4 rstep H.
  eapply inv_spawn_n; eauto.
Qed.

Lemma inv_spawn_loop S dm num e g n e' g' :
  Inv e -> spawn_loop S dm num e g = Ok (n, e', g') -> Inv e'.
Proof.
  unfold spawn_loop; intros I H. eapply (foldM_inv (fun s => Inv (snd (fst s)))) in H; auto.
  intros [[t1 e1] g1] i [[t2 e2] g2] _ I1 H1. cbn in *. do 2 rstep H1. destruct v0.
  rstep H1. destruct v0. rinv H1. eapply inv_spawn_n; eauto.
Qed.

Lemma inv_spawn_daily S dm t sp d e g n sp' d' e' g' :
  Inv e -> spawn_daily_displaced S dm t sp d e g = Ok (n, sp', d', e', g') -> Inv e'.
Proof.
  unfold spawn_daily_displaced; intros I H.
  rstep H; [|rstep H]; [rstep H; destruct v as [[? ?] ?]; rinv H; eapply inv_spawn_loop; eauto..|].
  rstep H. destruct v. rstep H. destruct v. cbv zeta in H.
  match type of H with (let (_, _) := ?x in _) = _ => destruct x end.
  rstep H. destruct v. rstep H. destruct v. rinv H.
  unfold spawn_at in E2. eapply inv_foldM2; [|  |exact E2].
  - intros e1 g1 i e2 g2 I1 H1; eapply inv_spawn_one; [exact I1|exact H1].
  - match goal with |- context [if ?b then _ else _] => destruct b end; [|assumption].
    eapply inv_same; [apply sl_same, still_reduce|exact I].
Qed.

Lemma inv_read_agents S rows e e' : Inv e -> read_agents S rows e = Ok e' -> Inv e'.
Proof.
  unfold read_agents; intros I H. rstep H. destruct v as [[? ?] ?]. rinv H.
  eapply (foldM_inv (fun s => Inv (snd s))) in E; auto.
  intros [[f h] e1] r [[f2 h2] e2] _ I1 H1. unfold read_agent_row in H1. cbn [snd] in *. rstep H1. rstep H1; [rinv H1; auto|].
  rstep H1; [rinv H1; auto|]. do 3 rstep H1. rinv H1.
  eapply inv_foldM; [|  |eassumption]; auto.
  intros e3 i e4 I3 H3. cbv beta in H3. rstep H3. rstep H3; [eapply inv_add_agent; eauto | rinv H3; auto].
Qed.

(** ** evolve *)

Lemma inv_evolve_agents S o e g e' g' : Inv e -> evolve_agents S o e g = Ok (e', g') -> Inv e'.
Proof.
  unfold evolve_agents; intros I H. eapply inv_foldM2; [|exact I|exact H].
  clear. intros e g ai e' g' I H. cbv zeta beta iota in H. rstep H.
  assert (I2 : Inv (if (1 <? s_log_agent S)%Z
                    then up_agent ai (up_a_locations_visited (fun _ => [])) e else e)).
  { match goal with |- context [if ?b then _ else _] => destruct b end; [|assumption].
    eapply inv_same; [|exact I]. apply same_up_agent; reflexivity. }
  rstep H; [eapply inv_person_evolve; eauto.. | rinv H; assumption].
Qed.

Lemma inv_finish_agents fuel S o e g e' g' :
  Inv e -> finish_agents fuel S o e g = Ok (e', g') -> Inv e'.
Proof.
  unfold finish_agents; intros I H. eapply inv_foldM2; [|exact I|exact H].
  clear. intros e g ai e' g' I H. cbv beta iota in H. rstep H.
  rstep H; [rstep H; destruct v0; rinv H.. | rinv H; assumption];
    (eapply inv_same; [apply same_up_agent; reflexivity|]; eapply inv_finish_travel; eauto).
Qed.

Lemma inv_gone ai i e :
  Inv e -> (forall a, nth_error (e_agents e) ai = Some a -> a_location a = PLoc i) ->
  Inv (up_agent ai (up_a_location (fun _ => PGone i)) e).
Proof.
  intros [I1 I2 I3 I4 I5 I6] Hp.
  assert (C : forall f, (forall a, a_location a = PLoc i ->
                 f (up_a_location (fun _ => PGone i) a) = f a) ->
     countZ f (upd ai (up_a_location (fun _ => PGone i)) (e_agents e)) = countZ f (e_agents e)).
  { intros f Hf. destruct (nth_error (e_agents e) ai) eqn:E; [|now rewrite upd_none].
    rewrite (countZ_upd _ _ _ _ _ E), Hf by eauto. lia. }
  split; auto.
  - eapply struct_same; [|exact I1]. split; reflexivity.
  - cbn. intros b Hb. apply In_upd in Hb as [Hb|(a & Ha & ->)]; [exact (I2 b Hb)|].
    specialize (Hp _ Ha). apply nth_error_In in Ha. specialize (I2 _ Ha).
    unfold agent_ok in *; cbn. rewrite Hp in I2. tauto.
  - cbn. intros j l ki b Hj Hki Hb. apply In_upd in Hb as [Hb|(a & Ha & ->)]; [eauto|discriminate].
  - intros j z Hz. rewrite (I4 j z Hz). cbn. symmetry; apply C.
    intros a Ea; unfold stays, in_location, left_from; cbn; rewrite Ea. now rewrite orb_false_r.
  - intros j z Hz. rewrite (I5 j z Hz). cbn. symmetry; apply C.
    intros a Ea; unfold on_link; cbn; now rewrite Ea.
Qed.

Lemma inv_deactivate S e g e' g' : Inv e -> deactivate S e g = Ok (e', g') -> Inv e'.
Proof.
  unfold deactivate; intros I H. rstep H; [|rinv H; auto].
  eapply inv_foldM2; [|exact I|exact H].
  clear. intros e g ai e' g' I H. cbv beta iota in H. rstep H.
  rstep H; [rinv H; auto|]. rstep H; try discriminate; [|rinv H; auto].
  rstep H. rstep H; [|rinv H; auto]. destruct (rng_u g). do 2 rstep H. rstep H; rinv H; auto.
  apply inv_gone; auto. intros a Ha. unfold agent_of in E. rewrite Ha in E. cbn in E. congruence.
Qed.

Lemma inv_evolve fuel S o e g e' g' : Inv e -> evolve fuel S o e g = Ok (e', g') -> Inv e'.
Proof.
  unfold evolve; intros I H.
  rstep H. rstep H. destruct v0 as [e1 g1]. rstep H. destruct v0 as [e2 g2].
  rstep H. destruct v0 as [e3 g3]. do 3 rstep H. cbv zeta in H. rstep H. destruct v3. rinv H.
  apply (inv_same _ _ (same_time _ _)).
  eapply inv_deactivate; [|eassumption]. apply (inv_same _ _ (same_aggregate _ _)).
  eapply inv_same; [eapply same_update_recent; eauto|].
  assert (I3 : Inv e3).
  { eapply inv_finish_agents; [|eassumption]. eapply inv_evolve_agents; [|eassumption].
    eapply inv_same; [eapply sl_same, still_update_scores; eauto|].
    eapply inv_same; [eapply sl_same, still_refresh; eauto|assumption]. }
  assert (I4 : Inv v0) by (rinv E3; auto; eapply inv_same; [eapply sl_same, still_write_agents|]; eauto).
  rinv E4; auto; eapply inv_same; [eapply sl_same, still_write_links|]; eauto.
Qed.

(** ** Removing agents *)

Lemma inv_clear names e e' : Inv e -> clear_locations names e = Ok e' -> Inv e'.
Proof.
  unfold clear_locations; intros I H. rstep H. rinv H.
  (* all counters have been decremented once per agent *)
  assert (G : forall l e1 e2,
    foldM (fun e1 a => n <- pos_name e1 (a_location a) ;;
             if mem_str n names then dec_at (a_location a) e1 else Err TypeError) l e1 = Ok e2 ->
    SameStruct e1 e2 /\ map k_cumNumAgents (e_links e2) = map k_cumNumAgents (e_links e1) /\
    (forall a, In a l -> deactivated a = false) /\
    (forall i z, nth_error (lheads e2) i = Some z ->
       exists z0, nth_error (lheads e1) i = Some z0 /\ z = (z0 - countZ (stays i) l)%Z) /\
    (forall i z, nth_error (kheads e2) i = Some z ->
       exists z0, nth_error (kheads e1) i = Some z0 /\ z = (z0 - countZ (on_link i) l)%Z)).
  { induction l as [|a l IH]; intros e1 e2 H; cbn in H.
    - rinv H. split; [auto|]. split; [reflexivity|]. split; [easy|].
      split; intros; exists z; (split; [assumption|]); unfold countZ; cbn; lia.
    - rstep H. rstep E0. rstep E0; [|discriminate].
      apply IH in H as (S2 & C2 & D2 & L2 & K2).
      apply dec_at_spec in E0 as ([S1 L1 K1 C1] & A1 & R1).
      split; [eapply ss_trans; eauto|]. split; [congruence|]. split; [|split].
      + intros b [<-|Hb]; auto. unfold deactivated. destruct (a_location a); easy.
      + intros i z Hz. apply L2 in Hz as (z1 & Hz & ->). rewrite L1 in Hz.
        apply nth_lpos in Hz as (z0 & Hz & ->). exists z0; split; [assumption|].
        rewrite countZ_cons. unfold stays at 2, in_location, left_from.
        destruct (a_location a); cbn; try contradiction; try rewrite orb_false_r;
          try destruct (Nat.eqb i0 i); lia.
      + intros i z Hz. apply K2 in Hz as (z1 & Hz & ->). rewrite K1 in Hz.
        apply nth_kpos in Hz as (z0 & Hz & ->). exists z0; split; [assumption|].
        rewrite countZ_cons. unfold on_link at 2.
        destruct (a_location a); cbn; try contradiction; try destruct (Nat.eqb k i); lia. }
  apply G in E as (SS & C & _ & L & K). destruct I as [I1 I2 I3 I4 I5 I6].
  split; cbn; try easy.
  - eapply struct_same; [|exact I1]. destruct SS; split; cbn; auto.
  - intros i z Hz. unfold lheads in Hz; cbn in Hz. apply L in Hz as (z0 & Hz & ->).
    rewrite (I4 i z0 Hz). lia.
  - intros i z Hz. unfold kheads in Hz; cbn in Hz. apply K in Hz as (z0 & Hz & ->).
    rewrite (I5 i z0 Hz). lia.
  - intros k Hk. apply In_nth_error in Hk as [i Hi].
    assert (Hc : nth_error (map k_cumNumAgents (e_links v)) i = Some (k_cumNumAgents k))
      by now apply map_nth_error.
    assert (Hh : nth_error (kheads v) i = Some (khead (e_par v) k))
      by (unfold kheads; now apply map_nth_error).
    apply K in Hh as (z0 & Hh & Eh). rewrite C in Hc. unfold kheads in Hh.
    rewrite nth_error_map in Hh, Hc.
    destruct (nth_error (e_links e) i) as [k0|] eqn:E; [|discriminate]. cbn in *.
    injection Hh as <-. injection Hc as <-. apply nth_error_In in E. specialize (I6 _ E).
    pose proof (countZ_nonneg (on_link i) (e_agents e)). lia.
Qed.
