(** * Schedule: conflicts follow the table *)

From Coq Require Import Lia Lqa.
From Verif Require Import Base State Moving Crawling Scoring Diagnostics Flee DataTable
  Spawning InputGeography Api SpecAgents SpecHistory SpecRoutes SpecTravel SpecClosures SpecZones SpecSchedule
  Lemmas Inv InvMoves InvStruct Frames ScoreFrames Travel Closures Profile Zones ZoneProps.
Local Open Scope Q_scope.
Local Open Scope list_scope.

(** ** Calls that keep conflicts *)

Definition calm (l l' : location) : Prop := l_conflict l' = l_conflict l /\ l_name l' = l_name l.
Lemma calm_trans a b c : calm a b -> calm b c -> calm a c.
Proof. unfold calm; intuition congruence. Qed.
Lemma calm_prof a b : profile b = profile a -> calm a b.
Proof. intro H. split; [exact (f_equal l_conflict H)|exact (f_equal l_name H)]. Qed.

Section Calm.
  Context (S : settings).
  Notation R := (Each calm).
  Lemma c_trans a b c : R a b -> R b c -> R a c. Proof. apply each_trans, calm_trans. Qed.
  Lemma c_prof e e' : Prof1 e e' -> R e e'. Proof. intro X. apply each_prof; [exact calm_prof|now apply prof_of]. Qed.
  Lemma c_loc o n r x y lt mc cap pop f c at_ e g e' g' :
    add_location S o n r x y lt mc cap pop f c at_ e g = Ok (e', g') -> R e e'.
  Proof. intros; eapply each_add; [apply calm_prof|eauto]. Qed.
  Lemma c_take i e : s_TakeFromPopulation S = true -> R e (up_loc i take e).
  Proof. intros _. apply each_up; [apply calm_prof|]. intro l. unfold take, calm. destruct (0 <? l_pop l)%Z; repeat split. Qed.
  Lemma c_cap d e : R e (reduce_capacities d e).
  Proof. apply each_cap; [apply calm_prof|]. intros f l. repeat split. Qed.
  Lemma c_refl e : R e e. Proof. apply each_refl, calm_prof. Qed.
  Hint Resolve c_refl : core.

  Lemma c_enact fuel t tw e e' : Forall (fun k => c_kind k <> "camp"%string /\ c_kind k <> "idpcamp"%string) (e_closures e) ->
    enact_border_closures fuel S t tw e = Ok e' -> R e e'.
  Proof.
    intros F H. unfold enact_border_closures in H. rewrite Forall_forall in F.
    eapply (foldM_rel R) in H; [exact H|auto|exact c_trans|]. cbv beta iota. clear e' H.
    intros e0 c e' Hin H. specialize (F c Hin). destruct F as [F1 F2]. unfold enact_one in H. rstep H. eapply c_trans with v.
    - rstep E; [|rinv E; auto]. unfold enact_close in E.
      rstep E; [eapply (change_border_rel R); eauto using c_trans, (pr_close R c_prof), (pr_reopen R c_prof)|].
      rstep E; [rstep E; destruct v0; subst; eapply (change_location_rel R); eauto using c_trans, (pr_close R c_prof), (pr_reopen R c_prof)|].
      rstep E; [rstep E; destruct v0; subst; eapply (pr_close2 R c_prof); eassumption|].
      rewrite (proj2 (String.eqb_neq _ _) F1), (proj2 (String.eqb_neq _ _) F2) in E.
      rstep E; [eapply (pr_forced R c_trans c_prof); eauto|]. rinv E; auto.
    - rstep H; [|rinv H; auto]. unfold enact_open in H.
      rstep H; [eapply (change_border_rel R); eauto using c_trans, (pr_close R c_prof), (pr_reopen R c_prof)|].
      rstep H; [rstep H; destruct v0; subst; eapply (change_location_rel R); eauto using c_trans, (pr_close R c_prof), (pr_reopen R c_prof)|].
      rstep H; [rstep H; destruct v0; subst; eapply (pr_reopen2 R c_prof); eassumption|].
      rewrite (proj2 (String.eqb_neq _ _) F1), (proj2 (String.eqb_neq _ _) F2) in H.
      rstep H; [eapply (pr_forced R c_trans c_prof); eauto|]. rinv H; auto.
  Qed.

  Lemma c_step o c e g e' g' : keeps_conflicts c = true -> camps_stay S c e -> step o S c e g = Ok (e', g') -> R e e'.
  Proof.
    intros K C H. destruct (is_evolve c) eqn:V.
    { destruct c; try discriminate. cbn [step] in H. apply evolve_profile in H as [H _]. apply each_profile; [exact calm_prof|exact H]. }
    destruct c; try discriminate; cbn [step] in H;
      try (rstep H; rinv H);
      try match goal with E : rmap fst _ = Ok _ |- _ =>
            let P := fresh in apply rmap_ok in E as ([? ?] & P & ->); cbn [fst] end.
    - eapply c_loc; eauto.
    - eapply (pr_link_up R c_prof); eauto.
    - eapply (pr_set_attr R c_prof); eauto.
    - eapply (pr_add_agent S R c_trans c_prof c_take); eauto.
    - eapply (pr_append R c_prof); eauto.
    - eapply (pr_foldM R c_trans c_prof); [|exact E]; cbv beta iota. intros; eapply (pr_append R c_prof); eauto.
    - eapply (pr_clear R c_trans c_prof); eauto.
    - apply c_prof. destruct twoway; eapply prof_remove_1way; eauto.
    - apply c_prof. destruct twoway; eapply prof_reopen_1way; eauto.
    - eapply (change_location_rel R); eauto using c_trans, (pr_close R c_prof), (pr_reopen R c_prof).
    - eapply (change_location_rel R); eauto using c_trans, (pr_close R c_prof), (pr_reopen R c_prof).
    - eapply (change_border_rel R); eauto using c_trans, (pr_close R c_prof), (pr_reopen R c_prof).
    - eapply (change_border_rel R); eauto using c_trans, (pr_close R c_prof), (pr_reopen R c_prof).
    - eapply (pr_forced R c_trans c_prof); eauto.
    - rinv H. apply c_prof, prof_eq; reflexivity.
    - eapply c_enact; eauto.
    - eapply c_prof, prof_refresh; eauto.
    - unfold add_initial_refugees in H. rstep H; [rinv H; auto|]. do 4 rstep H.
      eapply (pr_spawns S R c_trans c_prof c_take) with (f := fun _ => loc); eauto.
    - unfold spawn_daily_displaced in E.
      rstep E; [|rstep E]; [rstep E; destruct v as [[? ?] ?]; rinv E; eapply (pr_spawn_loop S R c_trans c_prof c_take); eauto..|].
      rstep E. destruct v. rstep E. destruct v. cbv zeta in E.
      match type of E with (let (_, _) := ?x in _) = _ => destruct x end.
      rstep E. destruct v. rstep E. destruct v. rinv E.
      eapply c_trans; [|eapply (pr_spawns S R c_trans c_prof c_take) with (f := fun i => i); eassumption].
      destruct (_ && _)%bool; auto using c_cap.
    - unfold read_agents in E. rstep E. destruct v as [[? ?] ?]. rinv E.
      eapply (foldM_rel (fun s s' => R (snd s) (snd s'))) in E0; [exact E0|auto|intros ? ? ?; apply c_trans|].
      intros [[f h] e1] r [[f2 h2] e2] _ H1. unfold read_agent_row in H1. cbn [snd] in *.
      rstep H1. rstep H1; [rinv H1; auto|]. rstep H1; [rinv H1; auto|]. do 3 rstep H1. rinv H1.
      match goal with E : foldM _ _ _ = Ok _ |- _ => eapply (pr_foldM R c_trans c_prof); [|exact E]; cbv beta iota end.
      intros e3 i e4 H3. rstep H3. rstep H3; [eapply (pr_add_agent S R c_trans c_prof c_take); eauto | rinv H3; auto].
    - eapply (pr_store_input S R c_trans c_prof c_loc); eauto.
    - eapply (pr_update_attributes R c_trans c_prof); eauto.
  Qed.
End Calm.

(** ** One call *)

Lemma refresh_locs S e e' : refresh_spawn_weights S e = Ok e' -> e_locations e' = e_locations e /\ e_locationNames e' = e_locationNames e.
Proof. unfold refresh_spawn_weights; intro H; rinv H. split; reflexivity. Qed.

Lemma add_at S n q e e' i l : Inv e -> add_conflict_zone S n q true e = Ok e' -> nth_error (e_locations e) i = Some l ->
  exists l', nth_error (e_locations e') i = Some l' /\ l_name l' = l_name l /\ (lname l <> n -> l_conflict l' = l_conflict l) /\
    (first_named e n i l -> l_conflict l' = q).
Proof.
  intros I H Hl. unfold add_conflict_zone in H. destruct (first_index _ _ _) as [k|] eqn:F.
  - rstep H. apply refresh_locs in H as [H _]. rewrite H. cbn [up_loc up_e_locations e_locations]. rewrite nth_upd, Hl.
    destruct (Nat.eqb_spec k i) as [->|N]; cbn [option_map].
    + eexists. split; [reflexivity|]. split; [reflexivity|]. split; [|reflexivity]. intro X. exfalso. apply X.
      rewrite names_eq in F by exact I. pose proof (first_index_spec n (map lname (e_locations e)) 0) as Y. rewrite F in Y.
      destruct Y as (p & -> & P & _). cbn in Hl. rewrite nth_error_map, Hl in P. now injection P.
    + exists l. split; [reflexivity|]. split; [reflexivity|]. split; [reflexivity|]. intro X.
      apply (first_index_named _ _ _ _ I) in X. congruence.
  - injection H as <-. exists l. split; [exact Hl|]. split; [reflexivity|]. split; [reflexivity|].
    intro X. apply (first_index_named _ _ _ _ I) in X. congruence.
Qed.
Lemma remove_at S n e e' i l : Inv e -> remove_conflict_zone S n true e = Ok e' -> nth_error (e_locations e) i = Some l ->
  exists l', nth_error (e_locations e') i = Some l' /\ l_name l' = l_name l /\ (lname l <> n -> l_conflict l' = l_conflict l) /\
    (lname l = n -> l_conflict l' = -1).
Proof.
  intros I H Hl. unfold remove_conflict_zone in H.
  assert (N := st_names _ (i_struct _ I)).
  assert (Ln : List.length (e_locationNames e) = List.length (e_locations e)) by (rewrite N; apply map_length).
  pose proof (remove_fold S n true (e_locationNames e) 0 e (eq_sym Ln) eq_refl) as F. cbn [skipn firstn app] in F.
  rewrite F in H; clear F. cbn [bind] in H. apply refresh_locs in H as [H _]. rewrite H, N.
  cbn [up_e_locations e_locations]. rewrite combine_map_l, nth_error_map, Hl. cbn [option_map]. eexists. split; [reflexivity|].
  cbn [fst snd]. fold (lname l). destruct (String.eqb_spec (lname l) n); split; try reflexivity; split; intro; congruence || reflexivity.
Qed.
Lemma set_at S n q e e' i l : Inv e -> set_conflict_intensity S n q true e = Ok e' -> nth_error (e_locations e) i = Some l ->
  exists l', nth_error (e_locations e') i = Some l' /\ l_name l' = l_name l /\ (lname l <> n -> l_conflict l' = l_conflict l) /\
    (first_named e n i l -> l_conflict l' = if Qltb q conflict_from then -1 else q).
Proof.
  intros I H Hl. unfold set_conflict_intensity in H. fold conflict_from in H. destruct (Qltb q conflict_from).
  - destruct (remove_at _ _ _ _ _ _ I H Hl) as (l' & A & B & C & D). exists l'. repeat split; auto.
    intros (_ & X & _). apply D, X.
  - exact (add_at _ _ _ _ _ _ _ I H Hl).
Qed.

(** ** One entry of the table on one day *)

(** What happens to the level [c] *)
Definition effect (vals : list Q) (t : Z) (c c' : Q) : Prop :=
  exists v, py_index vals t = Ok v /\
    if Qltb threshold v then
      if (0 <? t)%Z then exists p, py_index vals (t - 1) = Ok p /\ c' = (if Qltb p threshold then v else c) else c' = v
    else if (Qltb v threshold && (0 <? t)%Z)%bool then
      exists p, py_index vals (t - 1) = Ok p /\ c' = (if Qleb threshold p then -1 else c)
    else c' = c.

Lemma inv_add S n q c e e' : Inv e -> add_conflict_zone S n q c e = Ok e' -> Inv e'.
Proof. intros I H. eapply inv_same; [eapply sl_same, still_add_conflict; eauto|assumption]. Qed.
Lemma inv_set S n q c e e' : Inv e -> set_conflict_intensity S n q c e = Ok e' -> Inv e'.
Proof.
  unfold set_conflict_intensity. intros I H. destruct (Qltb _ _); [|eapply inv_add; eauto].
  eapply inv_same; [eapply sl_same, still_remove_conflict; eauto|assumption].
Qed.

(** Names stay, and the level of location [i] is affected by its own entry only. *)
Definition Named (e e' : eco) : Prop := Each (fun l l' => l_name l' = l_name l) e e'.
Lemma named_trans a b c : Named a b -> Named b c -> Named a c.
Proof. apply each_trans. intros; congruence. Qed.
Lemma first_named_later e e' n i l l' : Named e e' -> first_named e n i l -> nth_error (e_locations e') i = Some l' -> first_named e' n i l'.
Proof.
  intros N (H & E & F) H'. destruct (N i l H) as (l1 & H1 & E1). assert (l1 = l') as -> by congruence.
  split; [exact H'|]. split; [now rewrite E1|]. intros j m J Hm.
  destruct (nth_error (e_locations e) j) as [m0|] eqn:Em.
  - destruct (N j m0 Em) as (m1 & Hm1 & E2). assert (m1 = m) as -> by congruence. rewrite E2. eapply F; eauto.
  - apply nth_error_None in Em. apply nth_error_lt in H. lia.
Qed.

Definition qltb_lt := Qltb_true.

Lemma entry_step S t e n vals e' : Inv e -> conflict_step S t e (n, vals) = Ok e' ->
  Inv e' /\ Named e e' /\
  (forall i l l', nth_error (e_locations e) i = Some l -> nth_error (e_locations e') i = Some l' ->
     (lname l <> n -> l_conflict l' = l_conflict l) /\ (first_named e n i l -> effect vals t (l_conflict l) (l_conflict l'))).
Proof.
  intros I H. unfold conflict_step in H. destruct (_ <? _)%Z; [discriminate|]. rstep H. rename v into v, E into Ev.
  assert (Same : forall (P : Prop), P -> Inv e /\ Named e e /\ forall i l l', nth_error (e_locations e) i = Some l -> nth_error (e_locations e) i = Some l' ->
     (lname l <> n -> l_conflict l' = l_conflict l) /\ (first_named e n i l -> P /\ l_conflict l' = l_conflict l)).
  { intros P HP. split; [exact I|]. split; [intros i l Hl; exists l; auto|]. intros i l l' A B. assert (l' = l) as -> by congruence. auto. }
  assert (Add : forall e1 q, add_conflict_zone S n q true e = Ok e1 -> Inv e1 /\ Named e e1 /\
     forall i l l', nth_error (e_locations e) i = Some l -> nth_error (e_locations e1) i = Some l' ->
     (lname l <> n -> l_conflict l' = l_conflict l) /\ (first_named e n i l -> l_conflict l' = q)).
  { intros e1 q X. split; [eapply inv_add; eauto|]. split.
    - intros i l Hl. destruct (add_at _ _ _ _ _ _ _ I X Hl) as (l' & A & B & _). eauto.
    - intros i l l' A B. destruct (add_at _ _ _ _ _ _ _ I X A) as (l1 & A1 & _ & C & D). assert (l1 = l') as -> by congruence. auto. }
  assert (Set_ : forall e1 q, set_conflict_intensity S n q true e = Ok e1 -> Inv e1 /\ Named e e1 /\
     forall i l l', nth_error (e_locations e) i = Some l -> nth_error (e_locations e1) i = Some l' ->
     (lname l <> n -> l_conflict l' = l_conflict l) /\ (first_named e n i l -> l_conflict l' = if Qltb q conflict_from then -1 else q)).
  { intros e1 q X. split; [eapply inv_set; eauto|]. split.
    - intros i l Hl. destruct (set_at _ _ _ _ _ _ _ I X Hl) as (l' & A & B & _). eauto.
    - intros i l l' A B. destruct (set_at _ _ _ _ _ _ _ I X A) as (l1 & A1 & _ & C & D). assert (l1 = l') as -> by congruence. auto. }
  change conflict_from with threshold in *.
  destruct (Qltb threshold v) eqn:V.
  - assert (W : Qltb v threshold = false).
    { apply qltb_lt in V. destruct (Qltb v threshold) eqn:W; [|reflexivity]. apply qltb_lt in W. lra. }
    rewrite W in *. cbn [andb] in H. rstep H. injection H as <-.
    destruct (0 <? t)%Z eqn:T.
    + rstep E. destruct (Qltb v1 threshold) eqn:P.
      * destruct (Set_ _ _ E) as (A & B & C). split; [exact A|]. split; [exact B|]. intros i l l' Hl Hl'. destruct (C i l l' Hl Hl') as [C1 C2].
        split; [exact C1|]. intro F. exists v. split; [exact Ev|]. rewrite V, T. exists v1. split; [assumption|]. rewrite P, (C2 F), W. reflexivity.
      * injection E as <-. destruct (Same True Logic.I) as (A & B & C). split; [exact A|]. split; [exact B|]. intros i l l' Hl Hl'. destruct (C i l l' Hl Hl') as [C1 C2].
        split; [exact C1|]. intro F. exists v. split; [exact Ev|]. rewrite V, T. exists v1. split; [assumption|]. rewrite P. apply (C2 F).
    + destruct (Add _ _ E) as (A & B & C). split; [exact A|]. split; [exact B|]. intros i l l' Hl Hl'. destruct (C i l l' Hl Hl') as [C1 C2].
      split; [exact C1|]. intro F. exists v. split; [exact Ev|]. rewrite V, T. exact (C2 F).
  - cbn [bind] in H. destruct (Qltb v threshold && (0 <? t)%Z)%bool eqn:W.
    + rstep H. destruct (Qleb threshold v0) eqn:P.
      * destruct (Set_ _ _ H) as (A & B & C). split; [exact A|]. split; [exact B|]. intros i l l' Hl Hl'. destruct (C i l l' Hl Hl') as [C1 C2].
        split; [exact C1|]. intro F. exists v. split; [exact Ev|]. rewrite V, W. exists v0. split; [assumption|]. rewrite P, (C2 F).
        apply andb_prop in W as [-> _]. reflexivity.
      * injection H as <-. destruct (Same True Logic.I) as (A & B & C). split; [exact A|]. split; [exact B|]. intros i l l' Hl Hl'. destruct (C i l l' Hl Hl') as [C1 C2].
        split; [exact C1|]. intro F. exists v. split; [exact Ev|]. rewrite V, W. exists v0. split; [assumption|]. rewrite P. apply (C2 F).
    + injection H as <-. destruct (Same True Logic.I) as (A & B & C). split; [exact A|]. split; [exact B|]. intros i l l' Hl Hl'. destruct (C i l l' Hl Hl') as [C1 C2].
      split; [exact C1|]. intro F. exists v. split; [exact Ev|]. rewrite V, W. apply (C2 F).
Qed.

(** The whole table *)
Lemma table_step S t : forall tb e e', Inv e -> NoDup (map fst tb) -> foldM (conflict_step S t) tb e = Ok e' ->
  Inv e' /\ Named e e' /\
  (forall i l l', nth_error (e_locations e) i = Some l -> nth_error (e_locations e') i = Some l' ->
     (~ In (lname l) (map fst tb) -> l_conflict l' = l_conflict l) /\
     (forall n vals, In (n, vals) tb -> first_named e n i l -> effect vals t (l_conflict l) (l_conflict l'))).
Proof.
  induction tb as [|[n vals] tb IH]; intros e e' I ND H.
  - injection H as <-. split; [exact I|]. split; [intros i l Hl; exists l; auto|]. intros i l l' A B.
    assert (l' = l) as -> by congruence. split; [reflexivity|]. intros ? ? [].
  - cbn [foldM] in H. apply bind_ok in H as (e1 & H1 & H). cbn [map fst] in ND. inversion ND as [|? ? Nn ND']; subst.
    destruct (entry_step _ _ _ _ _ _ I H1) as (I1 & N1 & E1). destruct (IH e1 e' I1 ND' H) as (I2 & N2 & E2).
    split; [exact I2|]. split; [eapply named_trans; eauto|]. intros i l l' Hl Hl'.
    destruct (N1 i l Hl) as (l1 & Hl1 & En). destruct (E1 i l l1 Hl Hl1) as [A1 B1]. destruct (E2 i l1 l' Hl1 Hl') as [A2 B2].
    assert (Eq : lname l1 = lname l) by (unfold lname; now rewrite En). split.
    + cbn [map fst In]. intro X. rewrite A2, A1; [reflexivity| |]; [intro; apply X; left; congruence|]. rewrite Eq. tauto.
    + intros m vs [X|X] F.
      * injection X as -> ->. rewrite <- (A2) in B1; [exact (B1 F)|]. rewrite Eq. destruct F as (_ & F & _). fold (lname l) in F. now rewrite F.
      * rewrite <- A1.
        { eapply B2; [exact X|]. eapply first_named_later; eauto. }
        destruct F as (_ & F & _). fold (lname l) in F. rewrite F. intros ->. apply Nn. apply (in_map fst) in X. exact X.
Qed.

Lemma no_changes S t changes e e' : (forall r, In r changes -> ~ due t r) -> apply_changes S t changes e = Ok e' -> e' = e.
Proof.
  intros N H. unfold apply_changes in H. eapply (foldM_inv (fun x => x = e)) in H; [exact H| |reflexivity].
  intros s r s' Hr -> Hs. unfold cellv, cell in Hs. rstep Hs. rstep E. rstep Hs. rinv E.
  destruct (_ =? _)%Z eqn:D; [|now injection Hs]. exfalso. apply (N r Hr). apply Z.eqb_eq in D. subst.
  destruct (nth_error r 2) as [c|] eqn:C; [|discriminate]. exists c. split; [exact C|].
  cbn [of_option] in E0. injection E0 as ->.
  destruct (parse_Z (sval v0)); [|discriminate]. now injection E1 as ->.
Qed.

Lemma day_step S ig t changes e e' : Inv e -> NoDup (map fst (ig_conflicts ig)) ->
  s_FloodRulesEnabled S = false -> ig_location_changes ig = Some changes -> (forall r, In r changes -> ~ due t r) ->
  add_new_conflict_zones S true ig t e = Ok e' ->
  Inv e' /\ Named e e' /\
  (forall i l l', nth_error (e_locations e) i = Some l -> nth_error (e_locations e') i = Some l' ->
     (~ In (lname l) (map fst (ig_conflicts ig)) -> l_conflict l' = l_conflict l) /\
     (forall n vals, In (n, vals) (ig_conflicts ig) -> first_named e n i l -> effect vals t (l_conflict l) (l_conflict l'))).
Proof.
  intros I ND Fl Ch Du H. unfold add_new_conflict_zones in H. rewrite Ch in H. cbn [of_option bind] in H. rstep H.
  apply no_changes in E; [|exact Du]. subst. rewrite Fl in H. eapply table_step; eauto.
Qed.

(** ** The days *)

Lemma py_index_inv {A} (l : list A) z v : (0 <= z)%Z -> py_index l z = Ok v -> nth_error l (Z.to_nat z) = Some v.
Proof.
  unfold py_index. intros Hz H. destruct (z <? 0)%Z eqn:N; [apply Z.ltb_lt in N; lia|].
  cbv zeta in H. rewrite N in H.
  destruct (nth_error l (Z.to_nat z)); [now injection H as ->|discriminate].
Qed.

Definition before (vals : list Q) (t : Z) (c : Q) : Prop :=
  if (t =? 0)%Z then c <= 0 else as_scheduled vals (Z.to_nat (t - 1)) c.

Lemma effect_day vals t c c' : (0 <= t)%Z -> (forall d u, nth_error vals d = Some u -> ~ u == conflict_from) ->
  before vals t c -> effect vals t c c' -> as_scheduled vals (Z.to_nat t) c'.
Proof.
  intros T Ne B (v & Hv & X). apply py_index_inv in Hv; [|exact T]. pose proof (Ne _ _ Hv) as Nv. exists v. split; [exact Hv|].
  change threshold with conflict_from in X. unfold before in B.
  assert (Start : forall p, nth_error vals (Z.to_nat (t - 1)) = Some p -> p < conflict_from ->
      conflict_from < v -> c' = v -> exists s w, (s <= Z.to_nat t)%nat /\ nth_error vals s = Some w /\ c' = w /\
       (forall d u, (s <= d <= Z.to_nat t)%nat -> nth_error vals d = Some u -> conflict_from < u) /\
       (forall d u, s = Datatypes.S d -> nth_error vals d = Some u -> u < conflict_from)).
  { intros p Hp P V ->. exists (Z.to_nat t), v. split; [lia|]. split; [exact Hv|]. split; [reflexivity|]. split.
    - intros d u D Hu. assert (d = Z.to_nat t) as -> by lia. congruence.
    - intros d u D Hu. replace d with (Z.to_nat (t - 1)) in Hu by lia. congruence. }
  destruct (Qltb conflict_from v) eqn:V.
  - apply qltb_lt in V. split; [|intro; lra]. intros _. destruct (0 <? t)%Z eqn:T0.
    + apply Z.ltb_lt in T0. replace (t =? 0)%Z with false in B by (symmetry; apply Z.eqb_neq; lia).
      destruct X as (p & Hp & ->). apply py_index_inv in Hp; [|lia]. destruct (Qltb p conflict_from) eqn:P.
      * apply qltb_lt in P. eapply Start; eauto.
      * destruct B as (p' & Hp' & B & _). assert (p' = p) as -> by congruence.
        assert (P2 : conflict_from < p).
        { pose proof (Ne _ _ Hp). destruct (Qlt_le_dec p conflict_from) as [Y|Y]; [apply qltb_lt in Y; congruence|].
          destruct (Qlt_le_dec conflict_from p) as [Z|Z]; [exact Z|]. exfalso. apply H. lra. }
        destruct (B P2) as (s & w & Hs & Hw & -> & All & Fst). exists s, w. split; [lia|]. split; [exact Hw|]. split; [reflexivity|].
        split; [|exact Fst]. intros d u D Hu. destruct (Nat.eq_dec d (Z.to_nat t)) as [->|]; [congruence|].
        apply (All d u); [lia|exact Hu].
    + apply Z.ltb_ge in T0. assert (t = 0%Z) as -> by lia. subst. exists 0%nat, v. split; [lia|]. split; [exact Hv|]. split; [reflexivity|].
      split; [|discriminate]. intros d u D Hu. assert (d = 0%nat) as -> by lia. change (Z.to_nat 0) with 0%nat in Hv. congruence.
  - assert (V2 : v < conflict_from).
    { destruct (Qlt_le_dec v conflict_from) as [Y|Y]; [exact Y|]. exfalso. apply Nv.
      destruct (Qlt_le_dec conflict_from v) as [Z|Z]; [apply qltb_lt in Z; congruence|lra]. }
    split; [intro; lra|]. intros _. rewrite (proj2 (qltb_lt _ _) V2) in X. cbn [andb] in X. destruct (0 <? t)%Z eqn:T0.
    + apply Z.ltb_lt in T0. replace (t =? 0)%Z with false in B by (symmetry; apply Z.eqb_neq; lia).
      destruct X as (p & Hp & ->). apply py_index_inv in Hp; [|lia]. destruct (Qleb conflict_from p) eqn:P; [lra|].
      destruct B as (p' & Hp' & _ & B). assert (p' = p) as -> by congruence. apply B.
      destruct (Qlt_le_dec p conflict_from) as [Y|Y]; [exact Y|]. apply Qle_bool_iff in Y. unfold Qleb in P. congruence.
    + apply Z.ltb_ge in T0. assert (t = 0%Z) as -> by lia. subst. exact B.
Qed.

Lemma schedule_run o ig n vals i : NoDup (map fst (ig_conflicts ig)) -> In (n, vals) (ig_conflicts ig) ->
  (forall d u, nth_error vals d = Some u -> ~ u == conflict_from) ->
  forall h t t', scheduled ig t h t' -> (0 <= t)%Z -> forall e g e' g' l, Inv e -> first_named e n i l -> before vals t (l_conflict l) ->
  during camps_stay o h e g -> run o h e g = Ok (e', g') ->
  (t <= t')%Z /\ exists l', nth_error (e_locations e') i = Some l' /\ before vals t' (l_conflict l').
Proof.
  intros ND Hin Ne. induction 1 as [t|t S h t' changes Fl Ch Du Sc IH|t S c h t' K Sc IH]; intros T e g e' g' l I F B D H.
  - injection H as <- <-. split; [lia|]. exists l. split; [apply F|exact B].
  - unfold run in H. cbn [foldM fst snd] in H. apply bind_ok in H as ([e1 g1] & H1 & H). cbn [during fst snd] in D. rewrite H1 in D. destruct D as [_ D].
    cbn [step] in H1. rstep H1. injection H1 as <- <-. destruct (day_step _ _ _ _ _ _ I ND Fl Ch Du E) as (I1 & N1 & X).
    destruct (N1 i l (proj1 F)) as (l1 & Hl1 & _). destruct (X i l l1 (proj1 F) Hl1) as [_ X1]. specialize (X1 n vals Hin F).
    pose proof (effect_day _ _ _ _ T Ne B X1) as A.
    destruct (IH ltac:(lia) v g e' g' l1 I1) as [L Y]; [eapply first_named_later; eauto| |exact D|exact H|].
    + unfold before. replace (t + 1 =? 0)%Z with false by (symmetry; apply Z.eqb_neq; lia). now replace (t + 1 - 1)%Z with t by lia.
    + split; [lia|exact Y].
  - unfold run in H. cbn [foldM fst snd] in H. apply bind_ok in H as ([e1 g1] & H1 & H). cbn [during fst snd] in D. rewrite H1 in D. destruct D as [D0 D].
    pose proof (c_step S o c e g e1 g1 K D0 H1) as C. destruct (C i l (proj1 F)) as (l1 & Hl1 & Ec & En).
    apply (IH T e1 g1 e' g' l1); [eapply step_inv; eauto| |now rewrite Ec|exact D|exact H].
    eapply first_named_later; [|exact F|exact Hl1]. intros j m Hm. destruct (C j m Hm) as (m' & A & _ & Z). eauto.
Qed.

Lemma schedule_followed o ig n vals i h t e g e' g' l : reachable o e g ->
  NoDup (map fst (ig_conflicts ig)) -> In (n, vals) (ig_conflicts ig) ->
  (forall d u, nth_error vals d = Some u -> ~ u == conflict_from) ->
  first_named e n i l -> l_conflict l <= 0 ->
  scheduled ig 0 h (Z.of_nat t + 1) -> during camps_stay o h e g -> run o h e g = Ok (e', g') ->
  exists l', nth_error (e_locations e') i = Some l' /\ as_scheduled vals t (l_conflict l').
Proof.
  intros R ND Hin Ne F L Sc D H.
  destruct (schedule_run o ig n vals i ND Hin Ne h 0 (Z.of_nat t + 1) Sc ltac:(lia) e g e' g' l (reachable_inv _ _ _ R) F L D H) as [_ (l' & Hl & B)].
  exists l'. split; [exact Hl|]. unfold before in B. replace (Z.of_nat t + 1 =? 0)%Z with false in B by (symmetry; apply Z.eqb_neq; lia).
  replace (Z.to_nat (Z.of_nat t + 1 - 1)) with t in B by lia. exact B.
Qed.
Lemma schedule_zone o ig n vals i h t e g e' g' l v : reachable o e g ->
  NoDup (map fst (ig_conflicts ig)) -> In (n, vals) (ig_conflicts ig) ->
  (forall d u, nth_error vals d = Some u -> ~ u == conflict_from) ->
  first_named e n i l -> l_conflict l <= 0 ->
  scheduled ig 0 h (Z.of_nat t + 1) -> during camps_stay o h e g -> run o h e g = Ok (e', g') ->
  nth_error vals t = Some v ->
  exists l', nth_error (e_locations e') i = Some l' /\ (0 < l_conflict l' <-> conflict_from < v).
Proof.
  intros R ND Hin Ne F L Sc D H Hv. destruct (schedule_followed _ _ _ _ _ _ _ _ _ _ _ _ R ND Hin Ne F L Sc D H) as (l' & Hl & v' & Hv' & A & B).
  assert (v' = v) as -> by congruence. exists l'. split; [exact Hl|]. split.
  - intro X. destruct (Qlt_le_dec conflict_from v) as [Y|Y]; [exact Y|]. assert (v < conflict_from).
    { destruct (Qlt_le_dec v conflict_from) as [Z|Z]; [exact Z|]. exfalso. apply (Ne _ _ Hv). lra. }
    specialize (B H0). lra.
  - intro X. destruct (A X) as (s & w & Ls & Hw & -> & All & _).
    assert (conflict_from < w) by (apply (All s w); [lia|exact Hw]).
    unfold conflict_from in *. lra.
Qed.

(** Locations that are not in the table *)
Lemma schedule_others o ig i : NoDup (map fst (ig_conflicts ig)) ->
  forall h t t', scheduled ig t h t' -> forall e g e' g' l, Inv e -> nth_error (e_locations e) i = Some l -> ~ In (lname l) (map fst (ig_conflicts ig)) ->
  during camps_stay o h e g -> run o h e g = Ok (e', g') ->
  exists l', nth_error (e_locations e') i = Some l' /\ l_conflict l' = l_conflict l.
Proof.
  intros ND. induction 1 as [t|t S h t' changes Fl Ch Du Sc IH|t S c h t' K Sc IH]; intros e g e' g' l I F B D H.
  - injection H as <- <-. exists l. auto.
  - unfold run in H. cbn [foldM fst snd] in H. apply bind_ok in H as ([e1 g1] & H1 & H). cbn [during fst snd] in D. rewrite H1 in D. destruct D as [_ D].
    cbn [step] in H1. rstep H1. injection H1 as <- <-. destruct (day_step _ _ _ _ _ _ I ND Fl Ch Du E) as (I1 & N1 & X).
    destruct (N1 i l F) as (l1 & Hl1 & En). destruct (X i l l1 F Hl1) as [X1 _]. specialize (X1 B).
    assert (Eq : lname l1 = lname l) by (unfold lname; now rewrite En).
    destruct (IH v g e' g' l1 I1 Hl1) as (l' & A & C); [now rewrite Eq|exact D|exact H|]. exists l'. split; [exact A|congruence].
  - unfold run in H. cbn [foldM fst snd] in H. apply bind_ok in H as ([e1 g1] & H1 & H). cbn [during fst snd] in D. rewrite H1 in D. destruct D as [D0 D].
    destruct (c_step S o c e g e1 g1 K D0 H1 i l F) as (l1 & Hl1 & Ec & En).
    assert (Eq : lname l1 = lname l) by (unfold lname; now rewrite En).
    destruct (IH e1 g1 e' g' l1) as (l' & A & C); [eapply step_inv; eauto|exact Hl1|now rewrite Eq|exact D|exact H|].
    exists l'. split; [exact A|congruence].
Qed.

(** ** The table read from a file has one entry per name. *)

Lemma dict_set_keys {A} k (v : A) d : forall x, In x (map fst (dict_set k v d)) <-> x = k \/ In x (map fst d).
Proof.
  induction d as [|[k' v'] d IH]; intro x; cbn [dict_set map fst In]; [intuition|].
  destruct (String.eqb_spec k k') as [->|N]; cbn [map fst In]; [intuition|]. rewrite IH. intuition.
Qed.
Lemma dict_set_nodup {A} k (v : A) d : NoDup (map fst d) -> NoDup (map fst (dict_set k v d)).
Proof.
  induction d as [|[k' v'] d IH]; intro H; cbn [dict_set map fst]; [repeat constructor; auto|].
  inversion H; subst. destruct (String.eqb_spec k k') as [->|N]; cbn [map fst]; constructor; auto.
  rewrite dict_set_keys. intros [->|X]; auto.
Qed.
Lemma read_nodup {A} (parse : string -> res A) rows tb : read_columns parse rows = Ok tb -> NoDup (map fst tb).
Proof.
  unfold read_columns. destruct rows as [|h data]; intro H; [injection H as <-; constructor|].
  eapply (foldM_inv (fun d => NoDup (map fst d))) in H; [exact H| |].
  - intros d r d' _ N Hs. revert Hs. generalize (tl (map sval h)) as hd. revert d N. generalize (tl r) as cs.
    induction cs as [|c cs IH]; intros d N hd Hs; destruct hd as [|n hd]; cbn [append_cells] in Hs; try (now injection Hs as <-); try discriminate. do 2 rstep Hs. eapply IH; [|exact Hs]. now apply dict_set_nodup.
  - unfold init_columns. assert (X : forall hs d, NoDup (map fst d) ->
      NoDup (map fst (fold_left (fun d h => if empty_cell (strip h) then d else dict_set (strip h) ([] : list A) d) hs d))).
    { induction hs as [|x hs IH]; intros d N; [exact N|]. cbn [fold_left]. apply IH. destruct (empty_cell _); [exact N|]. now apply dict_set_nodup. }
    apply X. constructor.
Qed.
Lemma conflicts_nodup rows tb : read_conflicts rows = Ok tb -> NoDup (map fst tb).
Proof. apply read_nodup. Qed.

Lemma schedule_rest o ig i h t t' e g e' g' l : reachable o e g -> NoDup (map fst (ig_conflicts ig)) -> scheduled ig t h t' ->
  nth_error (e_locations e) i = Some l -> ~ In (sval (l_name l)) (map fst (ig_conflicts ig)) ->
  during camps_stay o h e g -> run o h e g = Ok (e', g') ->
  exists l', nth_error (e_locations e') i = Some l' /\ l_conflict l' = l_conflict l.
Proof. intros R N Sc. apply (schedule_others o ig i N h t t' Sc e g e' g' l (InvStruct.reachable_inv o e g R)). Qed.
