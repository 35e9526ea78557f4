(** * SumProofs: the counts for the values of an attribute add up, for C88 *)

From Coq Require Import Lia.
From Verif Require Import Base State Moving Crawling Scoring Diagnostics Flee DataTable
  Spawning InputGeography Api SpecAgents SpecHistory SpecRoutes SpecTraffic Lemmas Inv InvMoves InvStruct Frames
  ScoreFrames Travel Profile Zones ReportProofs Traffic TrafficProofs CoreProofs LinkLogProofs Schedule LogHistory
  SpecLinkText.
Local Open Scope list_scope.

(** ** What holds of the counters of all links, and of those of a new link, goes on to hold
    in calls other than evolve. *)

Definition Pass (P : Z * table -> Prop) (e e' : eco) : Prop :=
  P (0%Z, []) -> (forall k, In k (e_links e) -> P (ktab k)) -> forall k, In k (e_links e') -> P (ktab k).

Lemma pass_refl P e : Pass P e e.
Proof. intros _ H. exact H. Qed.
Lemma pass_trans P a b c : Pass P a b -> Pass P b c -> Pass P a c.
Proof. intros H1 H2 N H. apply H2; [exact N|]. apply H1; assumption. Qed.
Lemma pass_still P e e' : Still e e' -> Pass P e e'.
Proof.
  intros S N H k K. apply tabs_still in S. apply (in_map ktab) in K. fold (tabs e') in K. rewrite S in K.
  apply in_map_iff in K as (k0 & <- & K). apply H, K.
Qed.
Lemma pass_eq P e e' : e_links e' = e_links e -> Pass P e e'.
Proof. intros E N H k K. rewrite E in K. apply H, K. Qed.
Lemma pass_new P e e' l : e_links e' = e_links e ++ l -> (forall k, In k l -> ktab k = (0%Z, [])) -> Pass P e e'.
Proof. intros E L N H k K. rewrite E in K. apply in_app_or in K as [K|K]; [apply H, K|]. rewrite (L k K). exact N. Qed.
Lemma pass_upd P e e' n f : e_links e' = upd n f (e_links e) -> (forall k, ktab (f k) = ktab k) -> Pass P e e'.
Proof.
  intros E F N H k K. rewrite E in K. apply In_nth_error in K as (m & K). rewrite nth_upd in K.
  destruct (nth_error (e_links e) m) as [k0|] eqn:K0; [|destruct (n =? m)%nat; discriminate].
  apply nth_error_In in K0. destruct (n =? m)%nat; injection K as <-; [rewrite F|]; apply H, K0.
Qed.
Lemma pass_copy P e e' n k c f : nth_error (e_links e) n = Some k -> e_links e' = upd n f (e_links e) ++ [c] ->
  ktab c = ktab k -> (forall k, ktab (f k) = ktab k) -> Pass P e e'.
Proof.
  intros K E C F. apply pass_trans with (up_e_links (fun _ => upd n f (e_links e)) e); [eapply pass_upd; [reflexivity|exact F]|].
  intros N H k0 K0. rewrite E in K0. apply in_app_or in K0 as [K0|[<-|[]]]; [apply H, K0|]. rewrite C, <- F. apply H.
  cbn [up_e_links e_links]. apply (nth_error_In _ n). now rewrite nth_upd_same, K.
Qed.
#[export] Hint Resolve pass_refl pass_still : core.
Lemma pass_dec P p e e' : dec_at p e = Ok e' -> Pass P e e'.
Proof.
  intros S N H k K. apply tabs_dec in S. apply (in_map ktab) in K. fold (tabs e') in K. rewrite S in K.
  apply in_map_iff in K as (k0 & <- & K). apply H, K.
Qed.
Lemma pass_foldM2 {A B} P (f : eco * B -> A -> res (eco * B)) l e g e' g' :
  (forall e g a e' g', f (e, g) a = Ok (e', g') -> Pass P e e') ->
  foldM f l (e, g) = Ok (e', g') -> Pass P e e'.
Proof.
  intros Hf H. eapply (foldM_rel (fun s s' => Pass P (fst s) (fst s'))) in H;
    [exact H|auto|eauto using pass_trans|]. intros [] a [] _ Hs. eapply Hf; exact Hs.
Qed.

Lemma pass_add_location (P : Z * table -> Prop) S o n r x y lt mc cap pop f c at_ e g e' g' :
  add_location S o n r x y lt mc cap pop f c at_ e g = Ok (e', g') -> Pass P e e'.
Proof.
  unfold add_location; intro H.
  rstep H. rstep H. cbv zeta in H. do 2 rstep H. destruct v1. rstep H. rinv H.
  assert (Q0 : Pass P e a) by (destruct at_; inversion Heqp; subst; auto using pass_eq).
  eapply pass_trans; [exact Q0|]. eapply pass_trans; [|eapply pass_still, still_refresh; eauto].
  assert (Q1 : Pass P a e0).
  { eapply pass_trans; [|eapply pass_still, still_updateLocationScore; eauto]. now apply pass_eq. }
  eapply pass_trans; [exact Q1|now apply pass_eq].
Qed.
Lemma pass_link_up (P : Z * table -> Prop) n1 n2 d f at_ e e' : link_up n1 n2 d f at_ e = Ok e' -> Pass P e e'.
Proof.
  intro H. apply link_up_spec in H as (i1 & i2 & e0 & did & _ & _ & _ & _ & C & ->).
  destruct C as [(-> & -> & ->)|(a & -> & -> & ->)]; unfold kapp; cbn; 
  (eapply pass_new; [cbn; rewrite <- app_assoc; reflexivity|]; intros k [<-|[<-|[]]]; reflexivity).
Qed.
Lemma pass_remove_1way (P : Z * table -> Prop) s t co e e' b : remove_link_1way s t co e = Ok (e', b) -> Pass P e e'.
Proof.
  unfold remove_link_1way; intro H. rstep H. rstep H. destruct v0 as [[e1 l] r]. rinv H.
  apply pass_trans with e1; [|now apply pass_eq].
  eapply (foldM_rel (fun s s' => Pass P (fst (fst s)) (fst (fst s')))) in E0;
    [exact E0|auto|eauto using pass_trans|].
  intros [[e2 l2] r2] ki [[e3 l3] r3] _ Hs. unfold remove_step in Hs. cbn [fst].
  rinv Hs; auto.
  match goal with E : link_of e2 _ = Ok _ |- _ => unfold link_of in E; apply of_option_ok in E; eapply pass_copy; [exact E|reflexivity| |]; reflexivity end.
Qed.
Lemma pass_reopen_1way (P : Z * table -> Prop) s t e e' b : reopen_link_1way s t e = Ok (e', b) -> Pass P e e'.
Proof.
  unfold reopen_link_1way; intro H. rstep H. rstep H. destruct v0 as [[e1 l] r]. rinv H.
  apply pass_trans with e1; [|now apply pass_eq].
  eapply (foldM_rel (fun s s' => Pass P (fst (fst s)) (fst (fst s')))) in E0;
    [exact E0|auto|eauto using pass_trans|].
  intros [[e2 l2] r2] ki [[e3 l3] r3] _ Hs. unfold reopen_step in Hs. cbn [fst].
  rinv Hs; auto. eapply pass_upd; [reflexivity|]. reflexivity.
Qed.
Lemma pass_close (P : Z * table -> Prop) s t e e' b : close_link s t false e = Ok (e', b) -> Pass P e e'.
Proof. apply pass_remove_1way. Qed.
Lemma pass_reopen (P : Z * table -> Prop) s t e e' b : reopen_link s t false e = Ok (e', b) -> Pass P e e'.
Proof. apply pass_reopen_1way. Qed.

Lemma pass_spawns {A} (P : Z * table -> Prop) S dm t (f : A -> nat) l e g e' g' :
  foldM (fun st a => spawn_one S dm t (f a) st) l (e, g) = Ok (e', g') -> Pass P e e'.
Proof.
  apply pass_foldM2. intros; eapply pass_eq, links_spawn_one; eauto.
Qed.
Lemma pass_spawn_loop (P : Z * table -> Prop) S dm num e g n e' g' :
  spawn_loop S dm num e g = Ok (n, e', g') -> Pass P e e'.
Proof.
  unfold spawn_loop; intros H.
  eapply (foldM_rel (fun s s' => Pass P (snd (fst s)) (snd (fst s')))) in H;
    [exact H|auto|eauto using pass_trans|].
  intros [[t1 e1] g1] i [[t2 e2] g2] _ H1. cbn [fst snd] in *. do 2 rstep H1. destruct v0.
  rstep H1. destruct v0. rinv H1. eapply (pass_spawns P S dm _ (fun _ => _)); eauto.
Qed.

Theorem step_pass (P : Z * table -> Prop) o S c e g e' g' : (forall fuel, c <> OEvolve fuel) -> step o S c e g = Ok (e', g') -> Pass P e e'.
Proof.
  intros NE H. destruct c; cbn [step] in H;
    try (rstep H; rinv H);
    try match goal with E : rmap fst _ = Ok _ |- _ =>
          let P := fresh in apply rmap_ok in E as ([? ?] & P & ->); cbn [fst] end.
  - eapply pass_add_location; eauto.
  - eapply pass_link_up; eauto.
  - eapply pass_still, still_set_attr; eauto.
  - eapply pass_eq, links_add_agent; eauto.
  - eapply pass_eq, links_append; eauto.
  - eapply (foldM_rel (Pass P)) in E; [exact E|auto|eauto using pass_trans|].
    intros; eapply pass_eq, links_append; eauto.
  - unfold clear_locations in E. rstep E. rinv E.
    eapply pass_trans with v; [|now apply pass_eq].
    eapply (foldM_rel (Pass P)) in E0; [exact E0|auto|eauto using pass_trans|].
    intros s a s' _ Hs. rstep Hs. rstep Hs; [|discriminate]. eapply pass_dec; eauto.
  - now contradiction (NE fuel).
  - destruct twoway; eapply pass_remove_1way; eauto.
  - destruct twoway; eapply pass_reopen_1way; eauto.
  - eapply (change_location_rel (Pass P)); eauto using pass_trans, pass_close, pass_reopen.
  - eapply (change_location_rel (Pass P)); eauto using pass_trans, pass_close, pass_reopen.
  - eapply (change_border_rel (Pass P)); eauto using pass_trans, pass_close, pass_reopen.
  - eapply (change_border_rel (Pass P)); eauto using pass_trans, pass_close, pass_reopen.
  - eapply pass_still, still_close_camp; eauto.
  - eapply pass_still, still_open_camp; eauto.
  - eapply pass_still, still_change_location_type; eauto.
  - eapply pass_still, still_set_forced; eauto.
  - rinv H. eapply pass_still, still_closures; eauto.
  - eapply (enact_rel (Pass P)); eauto using pass_trans, pass_close, pass_reopen.
  - eapply pass_still, still_refresh; eauto.
  - eapply pass_still, still_add_conflict; eauto.
  - eapply pass_still, still_remove_conflict; eauto.
  - eapply pass_still, still_set_intensity; eauto.
  - unfold add_initial_refugees in H. rstep H; [rinv H; auto|]. do 4 rstep H.
    eapply (pass_spawns P S dm _ (fun _ => _)); eauto.
  - unfold spawn_daily_displaced in E.
    rstep E; [|rstep E]; [rstep E; destruct v as [[? ?] ?]; rinv E; eapply pass_spawn_loop; eauto..|].
    rstep E. destruct v. rstep E. destruct v. cbv zeta in E.
    match type of E with (let (_, _) := ?x in _) = _ => destruct x end.
    rstep E. destruct v. rstep E. destruct v. rinv E.
    eapply pass_trans; [|eapply (pass_spawns P S dm true (fun i => i)); eassumption].
    destruct (_ && _)%bool; auto. apply pass_still, still_reduce.
  - unfold read_agents in E. rstep E. destruct v as [[? ?] ?]. rinv E.
    eapply (foldM_rel (fun s s' => Pass P (snd s) (snd s'))) in E0;
      [exact E0|auto|eauto using pass_trans|].
    intros [[f h] e1] r [[f2 h2] e2] _ H1. unfold read_agent_row in H1. cbn [snd] in *.
    rstep H1. rstep H1; [rinv H1; auto|]. rstep H1; [rinv H1; auto|]. do 3 rstep H1. rinv H1.
    match goal with E : foldM _ _ _ = Ok _ |- _ =>
      eapply (foldM_rel (Pass P)) in E; [exact E|auto|eauto using pass_trans|] end.
    intros e3 i e4 _ H3. rstep H3. rstep H3; [eapply pass_eq, links_add_agent; eauto | rinv H3; auto].
  - eapply (store_input_rel (Pass P)); [..|eassumption]; eauto using pass_trans.
    + intros; eapply pass_add_location; eauto.
    + intros; eapply pass_link_up; eauto.
  - eapply pass_still, still_update_attributes; eauto.
  - eapply pass_still, still_add_new_conflict_zones; eauto.
Qed.



(** ** What evolve does to the counters *)
Lemma evolve_enters fuel S o e g e' g' : Inv e -> evolve fuel S o e g = Ok (e', g') ->
  exists evs, foldM (enter1 S) evs (tabs e) = Ok (tabs e') /\
    forall ev, In ev evs -> exists a, In a (e_agents e) /\ fst ev = a_attributes a.
Proof.
  intros I H. unfold evolve in H. rstep H. rename v into e0.
  pose proof (tabs_still _ _ (still_refresh _ _ _ E)) as T0.
  assert (A0 : e_agents e0 = e_agents e) by (unfold refresh_spawn_weights in E; rinv E; auto).
  assert (I0 : Inv e0) by (eapply inv_same; [eapply sl_same, still_refresh; eauto|assumption]).
  rstep H. destruct v as [e1 g1].
  pose proof (tabs_still _ _ (still_update_scores _ _ _ _ _ _ E0)) as T1.
  pose proof (sl_same _ _ (still_update_scores _ _ _ _ _ _ E0)) as Sm1.
  pose proof (sl_agents _ _ (still_update_scores _ _ _ _ _ _ E0)) as A1.
  assert (I1 : Inv e1) by (eapply inv_same; eauto).
  rstep H. destruct v as [e2 g2].
  destruct (evolve_agents_on _ _ _ _ _ _ I1 E1) as (I2 & N2 & Ln2 & l2 & En2 & D2).
  rstep H. destruct v as [e3 g3].
  destruct (finish_agents_done _ _ _ _ _ _ _ I2 E2) as (I3 & N3 & Ln3 & l3 & En3 & D3).
  rstep H. rename v into e4. rstep H. rename v into e5.
  assert (K5 : e_links e5 = e_links e3).
  { assert (X : e_links e4 = e_links e3) by (unfold write_agents in E3; rinv E3; auto).
    rewrite <- X. unfold write_links in E4; rinv E4; auto. }
  rstep H. rename v into e6. unfold update_recent in E5. rstep E5. rename v into ag. injection E5 as <-.
  cbv zeta in H. rstep H. destruct v as [e8 g4]. injection H as <- <-.
  pose proof (deactivate_spec _ _ _ _ _ E5) as (_ & _ & K8 & _ & _ & _ & _).
  assert (K8' : e_links e8 = e_links e3).
  { rewrite K8, <- K5. unfold aggregate_arrivals. destruct (0 <? s_log_camp S)%Z; reflexivity. }
  assert (At : map a_attributes (e_agents e2) = map a_attributes (e_agents e1)).
  { apply nth_ext_map; [exact Ln2|]. intros n a Ha.
    destruct (D2 n a Ha) as (x & y & a' & _ & X2 & [_ X3] & X4 & X5). exists a'. split; [exact X5|].
    destruct (X3 a X2) as (b & B1 & B2 & _). congruence. }
  exists (all_events e1 l2 (seq 0 (List.length (e_agents e1))) ++ all_events e2 l3 (seq 0 (List.length (e_agents e2)))). split.
  - unfold tabs at 2. cbn [up_e_time e_links]. rewrite K8'. fold (tabs e3).
    change (Ent S (all_events e1 l2 (seq 0 (List.length (e_agents e1))) ++ all_events e2 l3 (seq 0 (List.length (e_agents e2)))) e e3).
    eapply tabs_ent; [|eapply ent_app; [exact En2|exact En3]]. congruence.
  - intros ev Hev. apply in_app_iff in Hev as [Hev|Hev]; unfold all_events in Hev; apply in_flat_map in Hev as (n & _ & Hev);
      (destruct (nth_error _ n) as [a|] eqn:Hn in Hev; [|contradiction]);
      apply in_map_iff in Hev as (x & <- & _); cbn [fst].
    + exists a. split; [rewrite <- A0, <- A1; eapply nth_error_In; eauto|reflexivity].
    + destruct (map_eq_nth a_attributes a_attributes (e_agents e1) _ n a (eq_sym At) Hn) as (b & Hb & Eb).
      exists b. split; [rewrite <- A0, <- A1; eapply nth_error_In; eauto|congruence].
Qed.

(** ** Sums *)
Definition entries (s : string) (t : table) : list (pyval * Z) := match dict_get s t with Some c => c | None => [] end.
Definition Adds (s : string) (ct : Z * table) : Prop :=
  NoDup (map fst (snd ct)) /\ sumZ (map snd (entries s (snd ct))) = fst ct.

Lemma sum_count v c : sumZ (map snd (count_key v c)) = (sumZ (map snd c) + 1)%Z.
Proof.
  induction c as [|[w n] c IH]; [reflexivity|]. cbn [count_key]. destruct (key_eqb v w); cbn [map snd]; [|].
  - change (sumZ ((n + 1)%Z :: map snd c)) with (n + 1 + sumZ (map snd c))%Z. change (sumZ (n :: map snd c)) with (n + sumZ (map snd c))%Z. lia.
  - change (sumZ (n :: map snd (count_key v c))) with (n + sumZ (map snd (count_key v c)))%Z.
    change (sumZ (n :: map snd c)) with (n + sumZ (map snd c))%Z. rewrite IH. lia.
Qed.
Lemma entries_set s k c t : entries s (dict_set k c t) = if String.eqb s k then c else entries s t.
Proof. unfold entries. rewrite get_set. destruct (String.eqb s k); reflexivity. Qed.
Lemma sum_attributes s d : forall t t', NoDup (map fst d) -> NoDup (map fst t) -> count_attributes d t = Ok t' ->
  NoDup (map fst t') /\
  sumZ (map snd (entries s t')) = (sumZ (map snd (entries s t)) + if in_dec string_dec s (map fst d) then 1 else 0)%Z.
Proof.
  induction d as [|[k v] d IH]; intros t t' D T H.
  - injection H as <-. split; [exact T|]. cbn. lia.
  - inversion D as [|? ? Nk D']; subst. unfold count_attributes in H. cbn [foldM fst snd] in H.
    match type of H with bind ?m _ = _ => destruct m as [t1|] eqn:E; [|discriminate] end. cbn [bind] in H.
    fold (count_attributes d t1) in H.
    assert (E1 : t1 = dict_set k (count_key v (entries k t)) t) by (destruct v; try discriminate; injection E as <-; reflexivity).
    subst t1. destruct (IH _ _ D' (dict_set_nodup _ _ _ T) H) as [T' Sm]. split; [exact T'|]. rewrite Sm, entries_set.
    destruct (String.eqb_spec s k) as [->|N].
    + rewrite sum_count. destruct (in_dec _ k (map fst d)); [contradiction|]. destruct (in_dec _ k (map fst ((k, v) :: d))) as [_|X]; [lia|].
      exfalso; apply X; now left.
    + destruct (in_dec _ s (map fst d)) as [Y|Y], (in_dec _ s (map fst ((k, v) :: d))) as [X|X]; try reflexivity.
      * exfalso; apply X; now right.
      * cbn [map fst] in X; destruct X as [X|X]; [congruence|contradiction].
Qed.
Lemma adds_enter S s : (1 < s_log_link S)%Z -> forall evs T T', foldM (enter1 S) evs T = Ok T' ->
  (forall ev, In ev evs -> NoDup (map fst (fst ev)) /\ In s (map fst (fst ev))) ->
  (forall ct, In ct T -> Adds s ct) -> forall ct, In ct T' -> Adds s ct.
Proof.
  intro L. induction evs as [|[d n] evs IH]; intros T T' H P A; [injection H as <-; exact A|].
  cbn [foldM] in H. unfold enter1 at 1 in H. cbn [fst snd] in H. rstep H. rename v into T1. eapply IH; [exact H| |].
  - intros ev Hev. apply P. now right.
  - clear H IH. rstep E. apply of_option_ok in E0. rstep E. injection E as <-. unfold tab_inc in E1.
    apply Z.ltb_lt in L. rewrite L in E1. rstep E1. injection E1 as <-. destruct (P (d, n)) as [D I]; [now left|]. cbn [fst] in D, I.
    destruct v as [c t]. cbn [fst snd] in *. destruct (A _ (nth_error_In _ _ E0)) as [T0 S0]. cbn [fst snd] in T0, S0.
    destruct (sum_attributes s d _ _ D T0 E) as [T1 S1]. destruct (in_dec string_dec s (map fst d)); [|contradiction].
    intros ct Hct. apply In_nth_error in Hct as (m & Hm). rewrite nth_upd in Hm.
    destruct (nth_error T m) as [x|] eqn:Em; [|destruct (n =? m)%nat; discriminate].
    destruct (n =? m)%nat; injection Hm as <-; [|apply A; eapply nth_error_In; eauto]. split; cbn [fst snd]; [exact T1|]. lia.
Qed.

(** ** Histories *)
Definition Known (s : string) (e : eco) : Prop :=
  forall a, In a (e_agents e) -> NoDup (map fst (a_attributes a)) /\ In s (map fst (a_attributes a)).
Lemma known_back o S s c e g e' g' : is_clear c = false -> step o S c e g = Ok (e', g') -> Known s e' -> Known s e.
Proof.
  intros N H K a Ha. destruct (is_evolve c) eqn:Ev.
  - destruct c; try discriminate. cbn [step] in H. apply evolve_agent_spec in H as (_ & _ & _ & H).
    apply In_nth_error in Ha as (n & Ha). destruct (H n a Ha) as (a' & Ha' & _ & At & _). rewrite <- At. apply K. eapply nth_error_In; eauto.
  - pose proof (step_quiet _ _ _ _ _ _ _ Ev N H) as [_ _ (new & A & _)]. apply K. rewrite A. apply in_or_app. now left.
Qed.
Lemma known_run o s : forall h e g e' g', no_clear h -> run o h e g = Ok (e', g') -> Known s e' -> Known s e.
Proof.
  induction h as [|c h IH]; intros e g e' g' N H K; [injection H as <- <-; exact K|].
  apply run_cons in H as (e1 & g1 & H1 & H). inversion N as [|? ? N1 N2]; subst. eapply known_back; eauto.
Qed.
Definition All (P : Z * table -> Prop) (e : eco) : Prop := forall k, In k (e_links e) -> P (ktab k).
Lemma adds_evolve fuel S o s e g e' g' : Inv e -> (1 < s_log_link S)%Z -> Known s e -> evolve fuel S o e g = Ok (e', g') ->
  All (Adds s) e -> All (Adds s) e'.
Proof.
  intros I L K H A k Hk. destruct (evolve_enters _ _ _ _ _ _ _ I H) as (evs & F & Ev).
  eapply (adds_enter S s L _ _ _ F).
  - intros ev Hev. destruct (Ev ev Hev) as (a & Ha & ->). apply K, Ha.
  - intros ct Hct. apply in_map_iff in Hct as (k0 & <- & K0). apply A, K0.
  - apply in_map, Hk.
Qed.
Lemma adds_run o s : forall h e g e' g', Inv e -> no_clear h -> counted_well h -> run o h e g = Ok (e', g') -> Known s e' ->
  All (Adds s) e -> All (Adds s) e'.
Proof.
  induction h as [|c h IH]; intros e g e' g' I N W H K A; [injection H as <- <-; exact A|].
  apply run_cons in H as (e1 & g1 & H1 & H). inversion N as [|? ? N1 N2]; subst. inversion W as [|? ? W1 W2]; subst.
  pose proof (known_run _ _ _ _ _ _ _ N2 H K) as K1. pose proof (known_back _ _ _ _ _ _ _ _ N1 H1 K1) as K0.
  eapply IH; [eapply step_inv; eauto|exact N2|exact W2|exact H|exact K|].
  destruct (is_evolve (snd c)) eqn:Ev.
  - specialize (W1 eq_refl). destruct (snd c) eqn:Ec; try discriminate. cbn [step] in H1. eapply adds_evolve; eauto.
  - refine (step_pass (Adds s) _ _ _ _ _ _ _ _ H1 _ A).
    + intros fuel E. rewrite E in Ev. discriminate.
    + split; [constructor|reflexivity].
Qed.

Lemma filter_values s t (f : string * list (pyval * Z) -> pyval * Z -> link_row) :
  NoDup (map fst t) -> (forall sc vn, lr_attribute (f sc vn) = Some (fst sc, fst vn) /\ lr_count (f sc vn) = snd vn) ->
  sumZ (map lr_count (filter (about s) (flat_map (fun sc => map (f sc) (snd sc)) t))) = sumZ (map snd (entries s t)).
Proof.
  intros D F.
  assert (X : forall k c, filter (about s) (map (f (k, c)) c) = if String.eqb k s then map (f (k, c)) c else []).
  { intros k c. generalize c at 2 4 as l. induction l as [|vn l IH]; [destruct (String.eqb k s); reflexivity|].
    cbn [map filter]. rewrite IH. unfold about at 1. destruct (F (k, c) vn) as [-> _]. cbn [fst]. destruct (String.eqb k s); reflexivity. }
  assert (Y : forall k c l, map lr_count (map (f (k, c)) l) = map snd l).
  { intros k c l. rewrite map_map. apply map_ext. intro vn. apply F. }
  assert (Z0 : forall u, ~ In s (map fst u) -> filter (about s) (flat_map (fun sc => map (f sc) (snd sc)) u) = []).
  { induction u as [|[k c] u IH]; [reflexivity|]. cbn [map fst flat_map snd]. intro N. rewrite filter_app, X, IH by (intro; apply N; now right).
    destruct (String.eqb_spec k s) as [->|]; [|reflexivity]. exfalso; apply N; now left. }
  unfold entries. induction t as [|[k c] t IH]; [reflexivity|]. inversion D as [|? ? Nk D']; subst.
  cbn [flat_map snd dict_get]. rewrite filter_app, X. rewrite String.eqb_sym. destruct (String.eqb_spec s k) as [->|N].
  - rewrite Z0 by exact Nk. rewrite app_nil_r, Y. reflexivity.
  - cbn [app]. apply IH, D'.
Qed.

Theorem values_add_up o h g0 e g fuel S e' g' s : no_clear h -> counted_well h -> run o h empty_eco g0 = Ok (e, g) ->
  evolve fuel S o e g = Ok (e', g') -> (1 < s_log_link S)%Z ->
  (forall a, In a (e_agents e') -> NoDup (map fst (a_attributes a)) /\ In s (map fst (a_attributes a))) ->
  exists bs, e_links_out e' = (if (e_time e =? 0)%Z then [] else e_links_out e) ++ List.concat bs /\
    Forall2 (link_block S e' (e_time e)) (flat_map l_links (e_locations e')) bs /\ Forall (adds_up s) bs.
Proof.
  intros N W R H L K. pose proof (reachable_inv o e g (ex_intro _ h (ex_intro _ g0 R))) as I.
  assert (K0 : Known s e) by (eapply (known_back o S s (OEvolve fuel)); [reflexivity|exact H|exact K]).
  assert (A : All (Adds s) e) by (eapply adds_run; [apply inv_empty|exact N|exact W|exact R|exact K0|intros k []]).
  pose proof (adds_evolve _ _ _ _ _ _ _ _ I L K0 H A) as A'.
  apply evolve_link_log in H. destruct (Z.leb_spec (s_log_link S) 0) as [X|_]; [lia|]. destruct H as (bs & O & B).
  exists bs. split; [exact O|]. split; [exact B|]. clear O. induction B as [|ki b l bs B _ IH]; [constructor|]. constructor; [|exact IH].
  destruct B as (k & s0 & d & Hk & _ & _ & by_a & -> & Y). eexists _, by_a. split; [reflexivity|]. split; [reflexivity|].
  destruct (Z.leb_spec (s_log_link S) 1) as [X|_]; [lia|]. destruct (A' k (nth_error_In _ _ Hk)) as [D Sm]. cbn [ktab fst snd lr_count] in *.
  rewrite <- Sm, Y. symmetry.
  exact (filter_values s (k_cumByAttribute k) (fun sc vn => LinkRow (e_time e) (log_name S s0) (log_name S d) (snd vn) (Some (fst sc, fst vn)))
    D (fun sc vn => conj eq_refl eq_refl)).
Qed.
