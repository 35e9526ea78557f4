(** * ParTotals: the total number of agents, both latency modes *)

From Coq Require Import Lia Permutation.
From Verif Require Import Base State Moving Crawling Scoring Diagnostics Flee DataTable
  Spawning InputGeography Api Pflee ParApi SpecAgents SpecHistory SpecParallel Lemmas Inv InvMoves InvStruct Frames
  ScoreFrames Travel Profile ReportProofs Skeleton ParProofs ParInv ParSteps ParProps ParCounts.
Local Open Scope list_scope.

(** ** Every road is listed *)

Definition all_links (e : eco) : list nat := flat_map l_links (e_locations e).
Definition J (e : eco) : Prop :=
  Permutation (all_links e) (seq 0 (List.length (e_links e))) /\
  (forall l, In l (e_locations e) -> l_closed_links l = []) /\ e_closures e = [].

Definition K (e : eco) := (map lk (e_locations e), List.length (e_links e), e_closures e).
Lemma j_shape e e' : K e' = K e -> J e -> J e'.
Proof.
  unfold K, J, all_links. intros H (P & C & D). injection H as H1 H2 H3. rewrite H2, H3. split; [|split; [|exact D]].
  - assert (E : flat_map l_links (e_locations e') = flat_map l_links (e_locations e)); [|now rewrite E].
    rewrite !flat_map_concat_map. f_equal. apply (f_equal (map l_links)) in H1. now rewrite !map_map in H1.
  - intros l Hl. apply In_nth_error in Hl as [i Hi]. destruct (map_eq_nth _ _ _ _ i l (eq_sym H1) Hi) as (m & Hm & E).
    unfold lk in E. injection E as _ _ E _. rewrite <- E. apply C. eapply nth_error_In; eauto.
Qed.
Lemma k_fx e e' : Fx e e' -> K e' = K e.
Proof.
  intros [H _]. unfold K. rewrite <- (map_length kk (e_links e')), <- (map_length kk (e_links e)).
  change (e_closures e') with (e_closures (sk e')). change (e_closures e) with (e_closures (sk e)).
  change (map lk (e_locations e')) with (e_locations (sk e')). change (map lk (e_locations e)) with (e_locations (sk e)).
  change (map kk (e_links e')) with (e_links (sk e')). change (map kk (e_links e)) with (e_links (sk e)). now rewrite H.
Qed.
Lemma j_fx e e' : Fx e e' -> J e -> J e'.
Proof. intro H. apply j_shape, k_fx, H. Qed.

Lemma flat_upd i n (ls : list location) l : nth_error ls i = Some l ->
  Permutation (flat_map l_links (upd i (up_l_links (fun ks => ks ++ [n])) ls)) (n :: flat_map l_links ls).
Proof.
  revert i; induction ls as [|m ls IH]; intros [|i] H; try discriminate; cbn.
  - rewrite <- app_assoc. cbn. symmetry. apply Permutation_middle.
  - rewrite IH by exact H. rewrite (Permutation_middle (l_links m)). apply Permutation_app_head. reflexivity.
Qed.
Lemma closed_upd i f (ls : list location) : (forall l, l_closed_links (f l) = l_closed_links l) ->
  (forall l, In l ls -> l_closed_links l = []) -> forall l, In l (upd i f ls) -> l_closed_links l = [].
Proof.
  intros F. revert i; induction ls as [|m ls IH]; intros [|i] H l Hl; cbn in *; try easy.
  - destruct Hl as [<-|Hl]; [rewrite F|]; auto.
  - destruct Hl as [<-|Hl]; [auto|]. eapply IH; eauto.
Qed.

Lemma j_kapp i x e l : nth_error (e_locations e) i = Some l -> J e -> J (kapp i x e).
Proof.
  intros E (P & C & D). unfold kapp, J, all_links. cbn. rewrite app_length, seq_app. cbn. split; [|split; [|exact D]].
  - rewrite (flat_upd _ _ _ _ E). rewrite (Permutation_cons_append _ _). now apply Permutation_app_tail.
  - apply closed_upd; auto.
Qed.
Lemma j_link_up n1 n2 d f at_ e e' : link_up n1 n2 d f at_ e = Ok e' -> J e -> J e'.
Proof.
  intros H I. apply link_up_spec in H as (i1 & i2 & e0 & did & _ & _ & L1 & L2 & C & ->).
  assert (P : J e0 /\ e_locations e0 = e_locations e).
  { destruct C as [(-> & -> & ->)|(a & -> & -> & ->)]; auto. }
  destruct P as [I0 HL]. rewrite <- HL in L1, L2.
  destruct (nth_error (e_locations e0) i1) as [l1|] eqn:E1; [|apply nth_error_None in E1; lia].
  assert (J1 : J (kapp i1 (Link i1 i2 false d 0 0 0 f did []) e0)) by (eapply j_kapp; eauto).
  destruct (nth_error (e_locations (kapp i1 (Link i1 i2 false d 0 0 0 f did []) e0)) i2) as [l2|] eqn:E2.
  - eapply j_kapp; eauto.
  - apply nth_error_None in E2. cbn in E2. rewrite upd_length in E2. lia.
Qed.

Lemma add_location_sk S o n r x y lt mc cap pop f c at_ e g e' g' :
  add_location S o n r x y lt mc cap pop f c at_ e g = Ok (e', g') ->
  exists l, l_links l = [] /\ l_closed_links l = [] /\
    sk e' = up_e_locationNames (fun ns => ns ++ [n]) (up_e_locations (fun ls => ls ++ [lk l]) (sk e)).
Proof.
  intros H. unfold add_location in H.
  set (ea := match at_ with None => (e, 0%nat) | Some d => (up_e_dicts (fun ds => ds ++ [d]) e, List.length (e_dicts e)) end) in H.
  assert (T : Fx e (fst ea)) by (unfold ea; destruct at_; cbn [fst]; auto).
  destruct ea as [ea da]; cbn [fst] in T. rstep H. rstep H. cbv zeta in H. rstep H. destruct v1 as [e1 g1]. rstep H.
  injection H as <- <-. exists v0.
  pose proof (new_location_new _ _ _ _ _ _ _ _ _ _ _ _ _ _ E0) as Nw.
  destruct Nw as (Nw & _). unfold lstruct in Nw. injection Nw as _ N1 N2 _. split; [exact N1|]. split; [exact N2|].
  apply sc_updateLocationScore in E1 as [E1 _]. apply fx_sc in E1 as [E1 _].
  apply fx_refresh in E2 as [E2 _]. rewrite E2.
  destruct T as [T _].
  transitivity (up_e_locationNames (fun ns => ns ++ [n]) (sk e1)); [reflexivity|]. rewrite E1.
  rewrite <- T. unfold sk, up_e_locationNames, up_e_locations. cbn. now rewrite map_app.
Qed.
Lemma j_add_location S o n r x y lt mc cap pop f c at_ e g e' g' :
  add_location S o n r x y lt mc cap pop f c at_ e g = Ok (e', g') -> J e -> J e'.
Proof.
  intros H (P & C & D). destruct (add_location_sk _ _ _ _ _ _ _ _ _ _ _ _ _ _ _ _ _ H) as (l & L1 & L2 & E).
  assert (EL : map lk (e_locations e') = map lk (e_locations e) ++ [lk l]) by apply (f_equal e_locations E).
  assert (EK : List.length (e_links e') = List.length (e_links e)).
  { rewrite <- (map_length kk (e_links e')), <- (map_length kk (e_links e)). apply (f_equal (fun s => List.length (e_links s)) E). }
  assert (ED : e_closures e' = e_closures e) by apply (f_equal e_closures E).
  unfold J. rewrite EK, ED. split; [|split; [|exact D]].
  - unfold all_links in *. assert (X : flat_map l_links (e_locations e') = flat_map l_links (e_locations e)); [|now rewrite X].
    apply (f_equal (map l_links)) in EL. rewrite map_app, !map_map in EL. cbn in EL. rewrite L1 in EL.
    rewrite !flat_map_concat_map. change (fun x => l_links (lk x)) with l_links in EL. 
    change (map (fun x => l_links x)) with (map l_links) in EL. rewrite EL, concat_app. cbn. apply app_nil_r.
  - apply (f_equal (map l_closed_links)) in EL. rewrite map_app, !map_map in EL. cbn in EL. rewrite L2 in EL.
    intros m Hm. assert (X : In (l_closed_links m) (map (fun x => l_closed_links x) (e_locations e'))) by (apply in_map_iff; eauto).
    rewrite EL in X. apply in_app_iff in X as [X|[<-|[]]]; [|reflexivity].
    apply in_map_iff in X as (q & <- & Hq). auto.
Qed.

Lemma j_step o S c e g e' g' : inherited c = true -> opens_closes_nothing (PEach c) = true ->
  step o S c e g = Ok (e', g') -> J e -> J e'.
Proof.
  intros Hc Ho E I. destruct c; try discriminate Hc; try discriminate Ho; cbn [step] in E.
  7:{ injection E as <- <-. cbn in Ho. destruct cs; [|discriminate]. destruct I as (A & B & _). repeat split; assumption. }
  all: rstep E; injection E as <- <-.
  - eapply j_link_up; eauto.
  - eapply j_fx; [eapply fx_set_attr; eauto|exact I].
  - eapply j_fx; [eapply fx_close_camp; eauto|exact I].
  - eapply j_fx; [eapply fx_open_camp; eauto|exact I].
  - eapply j_fx; [eapply fx_change_type; eauto|exact I].
  - eapply j_fx; [eapply fx_forced; eauto|exact I].
  - unfold enact_border_closures in E0. destruct I as (A & B & D). rewrite D in E0. injection E0 as <-. repeat split; assumption.
  - eapply j_fx; [eapply fx_refresh; eauto|exact I].
  - eapply j_fx; [eapply fx_add_conflict; eauto|exact I].
  - eapply j_fx; [eapply fx_remove_conflict; eauto|exact I].
  - eapply j_fx; [eapply fx_set_intensity; eauto|exact I].
  - eapply j_fx; [eapply fx_update_attributes; eauto|exact I].
  - eapply j_fx; [eapply fx_add_new_conflict_zones; eauto|exact I].
Qed.

(** ** The sum of all head counts *)

Lemma sumZ_app l m : sumZ (l ++ m) = (sumZ l + sumZ m)%Z.
Proof. induction l; cbn; [reflexivity|]. rewrite IHl. lia. Qed.
Lemma sumZ_perm l m : Permutation l m -> sumZ l = sumZ m.
Proof. induction 1; cbn; lia. Qed.
Lemma sumZ_zero {A} (l : list A) : sumZ (map (fun _ => 0%Z) l) = 0%Z.
Proof. induction l; cbn; auto. Qed.

Lemma sum_keys closed f ls : (forall l, In l ls -> l_closed_links l = []) -> forall i,
  sumZ (map f (keys_from closed i ls)) =
  (sumZ (map (fun j => f (AtLoc j)) (seq i (List.length ls))) + sumZ (map (fun k => f (AtRoad k)) (flat_map l_links ls)))%Z.
Proof.
  induction ls as [|l ls IH]; intros C i; [reflexivity|].
  cbn [keys_from List.length seq flat_map]. rewrite map_cons, !map_app, !map_cons. cbn [sumZ].
  rewrite !sumZ_app, IH by (intros; apply C; now right).
  unfold keys_of. rewrite (C l) by now left. replace (if closed then [] else []) with (@nil nat) by now destruct closed.
  rewrite app_nil_r, map_map. lia.
Qed.

Lemma count_one (z : nat) n : forall a, (a <= z < a + n)%nat -> forall f, (forall j, f j = if Nat.eqb z j then 1%Z else 0%Z) ->
  sumZ (map f (seq a n)) = 1%Z.
Proof.
  assert (O : forall n a, (z < a)%nat -> forall f, (forall j, f j = if Nat.eqb z j then 1%Z else 0%Z) -> sumZ (map f (seq a n)) = 0%Z).
  { clear. induction n as [|n IH]; intros a H f F; [reflexivity|]. cbn [seq map sumZ].
    rewrite (IH (S a)), F by (lia || assumption). destruct (Nat.eqb_spec z a); [lia|reflexivity]. }
  induction n as [|n IH]; intros a H f F; [lia|]. cbn [seq map sumZ]. rewrite F.
  destruct (Nat.eqb_spec z a) as [E|E].
  - rewrite O by (lia || assumption). reflexivity.
  - rewrite IH by (lia || assumption). reflexivity.
Qed.
Lemma how_many_cons f a l : how_many f (a :: l) = ((if f a then 1 else 0) + how_many f l)%Z.
Proof. unfold how_many. cbn. destruct (f a); cbn [List.length]; lia. Qed.

Lemma sum_places nl nk (ags : list agent) :
  (forall a, In a ags -> match a_location a with PLoc i => (i < nl)%nat | PLink k => (k < nk)%nat | PGone _ => False end) ->
  (sumZ (map (fun i => how_many (in_location i) ags) (seq 0 nl)) +
   sumZ (map (fun k => how_many (on_link k) ags) (seq 0 nk)))%Z = Z.of_nat (List.length ags).
Proof.
  induction ags as [|a ags IH]; intro H.
  - unfold how_many. cbn. now rewrite !sumZ_zero.
  - assert (IH' := IH (fun b Hb => H b (or_intror Hb))). specialize (H a (or_introl eq_refl)).
    rewrite (sumZ_ext _ (fun i => (if in_location i a then 1 else 0) + how_many (in_location i) ags)%Z) by (intros; apply how_many_cons).
    rewrite (sumZ_ext (fun k => how_many (on_link k) (a :: ags)) (fun k => (if on_link k a then 1 else 0) + how_many (on_link k) ags)%Z)
      by (intros; apply how_many_cons).
    rewrite !sumZ_add. cbn [List.length]. rewrite Nat2Z.inj_succ.
    unfold in_location at 1, on_link at 1. destruct (a_location a) as [i|k|i]; [| |destruct H].
    + rewrite (count_one i nl 0 ltac:(lia)) by reflexivity. rewrite sumZ_zero. lia.
    + rewrite (count_one k nk 0 ltac:(lia)) by reflexivity. rewrite sumZ_zero. lia.
Qed.

Lemma sum_on_rank closed e : Inv e -> e_par e = true -> (forall a, In a (e_agents e) -> deactivated a = false) -> J e ->
  sumZ (map (on_rank e) (keys closed e)) = Z.of_nat (List.length (e_agents e)).
Proof.
  intros I A D (P & C & _). unfold keys. rewrite (sum_keys closed (on_rank e) _ C 0).
  rewrite (sumZ_perm (map (fun k => on_rank e (AtRoad k)) (flat_map l_links (e_locations e)))
             (map (fun k => on_rank e (AtRoad k)) (seq 0 (List.length (e_links e))))) by (apply Permutation_map; exact P).
  rewrite <- (sum_places (List.length (e_locations e)) (List.length (e_links e)) (e_agents e)).
  - f_equal; apply sumZ_ext.
    + intros i Hi. apply in_seq in Hi. destruct (nth_error (e_locations e) i) as [l|] eqn:E.
      * eapply on_rank_loc; eauto.
      * apply nth_error_None in E. lia.
    + intros k Hk. apply in_seq in Hk. destruct (nth_error (e_links e) k) as [l|] eqn:E.
      * eapply on_rank_road; eauto.
      * apply nth_error_None in E. lia.
  - intros a Ha. pose proof (i_agents _ I a Ha) as [_ X]. specialize (D a Ha). unfold deactivated in D.
    destruct (a_location a); [apply X|apply X|discriminate].
Qed.

Lemma sum_swap {A B} (f : A -> B -> Z) (l : list A) (m : list B) :
  sumZ (map (fun b => sumZ (map (fun a => f a b) l)) m) = sumZ (map (fun a => sumZ (map (f a) m)) l).
Proof.
  induction l as [|a l IH]; cbn.
  - apply sumZ_zero.
  - rewrite <- IH. apply (sumZ_add (f a) (fun b => sumZ (map (fun a => f a b) l))).
Qed.

Definition AllJ (es : list eco) : Prop := forall e, In e es -> J e.

Lemma total_people n closed st e0 : Procs n (map fst st) -> Alive (map fst st) -> AllJ (map fst st) -> In e0 (map fst st) ->
  sumZ (map (total_at (map fst st)) (keys closed e0)) = people st.
Proof.
  intros P A Js I0. unfold total_at. rewrite sum_swap. unfold people. rewrite map_map.
  apply sumZ_ext. intros [e g] He. cbn [fst].
  assert (Ie : In e (map fst st)) by (apply in_map_iff; exists (e, g); auto).
  rewrite (twin_keys closed e0 e) by (apply (pr_twin _ _ P); auto).
  apply In_nth_error in Ie as X. destruct X as [r Hr]. destruct (pr_each _ _ P _ _ Hr) as (I & Pa & _).
  apply sum_on_rank; auto. intros a Ha. eapply A; eauto.
Qed.

(** ** The invariant of programs without closures *)

Record Tally (n : nat) (st : list (eco * rng)) : Prop := {
  ta_procs : Procs n (map fst st);
  ta_alive : Alive (map fst st);
  ta_roads : AllJ (map fst st);
  ta_total : forall e, In e (map fst st) -> e_total_agents e = people st }.

Lemma people_lists st : people st = sumZ (map (fun l => Z.of_nat (List.length l)) (map e_agents (map fst st))).
Proof. unfold people. now rewrite !map_map. Qed.
Lemma people_views st : people st = sumZ (map (fun l => Z.of_nat (List.length l)) (map V (map fst st))).
Proof. unfold people, V. rewrite !map_map. apply sumZ_ext. intros [e g] _. now rewrite map_length. Qed.

Lemma allj_rel es es' (R : eco -> eco -> Prop) : AllJ es -> Forall2 R es es' ->
  (forall e e', In e es -> R e e' -> J e -> J e') -> AllJ es'.
Proof.
  intros A F H e' He. apply In_nth_error in He as [i He].
  destruct (Forall2_nth_inv _ _ _ _ _ F He) as (e & He0 & Re). apply nth_error_In in He0. eauto.
Qed.
Lemma allj_local f st st' : (forall e, In e (map fst st) -> e_par e = true) -> Quietly f ->
  local f st = Ok st' -> AllJ (map fst st) -> AllJ (map fst st').
Proof.
  intros Pa Q H A. apply local_forall2 in H. eapply allj_rel; [exact A|exact H|].
  intros e e' He (g & g' & E) Je. eapply j_fx; [|exact Je]. eapply Q; eauto.
Qed.
Lemma k_updated T ks e : K (updated T ks e) = K e.
Proof.
  unfold K. assert (L : map lk (e_locations (updated T ks e)) = map lk (e_locations e)) by (apply set_heads_map; reflexivity).
  assert (M : List.length (e_links (updated T ks e)) = List.length (e_links e)).
  { rewrite <- (map_length kk (e_links e)), <- (map_length kk (e_links (updated T ks e))). f_equal. apply set_roads_map. reflexivity. }
  rewrite L, M. reflexivity.
Qed.
Lemma allj_map f es : (forall e, K (f e) = K e) -> AllJ es -> AllJ (map f es).
Proof. intros H A e' He. apply in_map_iff in He as (e & <- & He). eapply j_shape; [apply H|auto]. Qed.

Lemma procs_par n es e : Procs n es -> In e es -> e_par e = true.
Proof. intros P He. apply In_nth_error in He as [r He]. apply (pr_each _ _ P _ _ He). Qed.

Lemma update_tally n lat closed st st' : Procs n (map fst st) -> Alive (map fst st) -> AllJ (map fst st) ->
  collective (update_num_agents lat closed) st = Ok st' -> Tally n st' /\ people st' = people st.
Proof.
  intros P A Js H. destruct (update_step _ _ _ _ _ P H) as (e0 & I0 & Hf & Hs).
  assert (Pe : people st' = people st).
  { rewrite !people_views. f_equal. f_equal. eapply update_view; eauto. }
  split; [|exact Pe]. split.
  - eapply procs_collective; [|exact P|exact H]. intros; eapply procs_update; eauto.
  - apply alive_iff. rewrite (update_view _ _ _ _ _ P H). now apply alive_iff.
  - rewrite Hf. apply allj_map; [intro; apply k_updated|exact Js].
  - intros e He. rewrite Pe, Hf in *. apply in_map_iff in He as (e1 & <- & He1). cbn. eapply total_people; eauto.
Qed.

(** The skeleton of the processes during evolve *)
Lemma evolve_roads n m lat fuel S o st st' : Procs n (map fst st) -> AllJ (map fst st) ->
  par_evolve m lat fuel S o st = Ok st' ->
  exists st6 st7, Procs n (map fst st6) /\ AllJ (map fst st6) /\ collective (update_num_agents lat false) st6 = Ok st7 /\
    map V (map fst st6) = map (map ptick) (map V (map fst st)) /\
    Forall2 (fun e e' => Counted e e' /\ e_time e' = (e_time e + 1)%Z) (map fst st7) (map fst st').
Proof.
  intros P Js H0. 
  assert (R : forall st6 st7, Procs n (map fst st6) -> collective (update_num_agents lat false) st6 = Ok st7 ->
    AllJ (map fst st7) -> AllJ (map fst st6)).
  { intros st6 st7 P6 H7 J7 e He. destruct (update_step _ _ _ _ _ P6 H7) as (e0 & I0 & Hf & Hs).
    eapply j_shape; [|apply (J7 (updated (total_at (map fst st6)) (keys false e0) e)); rewrite Hf; now apply in_map].
    symmetry. apply k_updated. }
  destruct (evolve_parts _ _ _ _ _ _ _ _ P H0) as (st6 & st7 & P6 & H7 & V6 & F).
  exists st6, st7. split; [exact P6|]. split; [|auto]. apply (R st6 st7 P6 H7).
  (* the shape of st7 is the shape of st' *)
  assert (J' : AllJ (map fst st')).
  { clear -P Js H0. rename H0 into H. unfold par_evolve in H.
    apply bind_ok in H as (st0 & H0 & H). apply (procs_quiet n _ _ _ (quiet_first S o) P) in H0 as P0.
    apply (allj_local _ _ _ (fun e He => procs_par n _ e P He) (quiet_first S o)) in H0; [|exact Js]. rename H0 into J0.
    apply bind_ok in H as (st1 & H1 & H).
    assert (P1 : Procs n (map fst st1) /\ AllJ (map fst st1)).
    { destruct m; cbn [par_scores] in H1.
      - split; [eapply procs_quiet; [apply (quiet_update_scores S o)|exact P0|exact H1]|].
        eapply allj_local; [intros e He; exact (procs_par n _ e P0 He)|apply (quiet_update_scores S o)|exact H1|exact J0].
      - apply bind_ok in H1 as (sa & Ha & H1).
        apply (procs_quiet n _ _ _ (quiet_scores_of S o own_range) P0) in Ha as Pa.
        apply (allj_local _ _ _ (fun e He => procs_par n _ e P0 He) (quiet_scores_of S o own_range)) in Ha; [|exact J0].
        apply bind_ok in H1 as (sb & Hb & H1).
        apply procs_collective with (n := n) in Hb as Pb; [|intros ? ? Q [= <-]; now apply procs_synchronize|exact Pa].
        split; [eapply procs_quiet; [apply (quiet_missing S o)|exact Pb|exact H1]|].
        eapply allj_local; [intros e He; exact (procs_par n _ e Pb He)|apply (quiet_missing S o)|exact H1|].
        apply collective_map in Hb as [Hb _]; [|intros es' [= <-]; unfold synchronize; now rewrite !map_length].
        injection Hb as Hb. unfold synchronize in Hb. rewrite <- Hb. apply allj_map; [|exact Ha].
        intro e. apply k_fx, fx_locs, set_scores_map. reflexivity. }
    destruct P1 as [P1 J1]. clear J0 P0 H1.
    apply bind_ok in H as (st2 & H2 & H).
    apply procs_collective with (n := n) in H2 as P2; [|intros; eapply procs_spawned; eauto|exact P1].
    assert (J2 : AllJ (map fst st2)).
    { apply collective_map in H2 as [H2 _].
      2:{ intros es' F. unfold sync_spawned in F. apply bind_ok in F as (ts & _ & [= <-]). now rewrite !map_length. }
      unfold sync_spawned in H2. apply bind_ok in H2 as (ts & _ & H2). injection H2 as H2. rewrite <- H2.
      apply allj_map; [|exact J1]. intro e. apply k_fx, fx_locs, set_spawned_map. reflexivity. }
    clear H2 P1 J1.
    apply bind_ok in H as (st3 & H3 & H). apply (procs_quiet n _ _ _ (quiet_evolve_agents S o) P2) in H3 as P3.
    apply (allj_local _ _ _ (fun e He => procs_par n _ e P2 He) (quiet_evolve_agents S o)) in H3; [|exact J2].
    apply bind_ok in H as (st4 & H4 & H).
    apply procs_collective with (n := n) in H4 as P4; [|intros; eapply procs_update; eauto|exact P3].
    assert (J4 : AllJ (map fst st4)).
    { destruct (update_step _ _ _ _ _ P3 H4) as (e0 & _ & -> & _). apply allj_map; [intro; apply k_updated|exact H3]. }
    apply bind_ok in H as (st5 & H5 & H). apply (procs_quiet n _ _ _ (quiet_finish_agents fuel S o) P4) in H5 as P5.
    apply (allj_local _ _ _ (fun e He => procs_par n _ e P4 He) (quiet_finish_agents fuel S o)) in H5; [|exact J4].
    apply bind_ok in H as (st6 & H6 & H). apply (procs_quiet n _ _ _ (quiet_logs S) P5) in H6 as P6.
    apply (allj_local _ _ _ (fun e He => procs_par n _ e P5 He) (quiet_logs S)) in H6; [|exact H5].
    apply bind_ok in H as (st7 & H7 & H).
    apply procs_collective with (n := n) in H7 as P7; [|intros; eapply procs_update; eauto|exact P6].
    assert (J7 : AllJ (map fst st7)).
    { destruct (update_step _ _ _ _ _ P6 H7) as (e0 & _ & -> & _). apply allj_map; [intro; apply k_updated|exact H6]. }
    apply bind_ok in H as (st8 & H8 & H). apply (procs_quiet n _ _ _ (quiet_aggregate S) P7) in H8 as P8.
    apply (allj_local _ _ _ (fun e He => procs_par n _ e P7 He) (quiet_aggregate S)) in H8; [|exact J7].
    apply bind_ok in H as (st9 & H9 & H). apply (procs_quiet n _ _ _ (quiet_sinks S) P8) in H9 as P9.
    apply (allj_local _ _ _ (fun e He => procs_par n _ e P8 He) (quiet_sinks S)) in H9; [|exact H8].
    apply local_forall2 in H. eapply allj_rel; [exact H9|exact H|].
    intros e e' _ (g & g' & E) Je. injection E as <- <-. exact Je. }
  clear -J' F. intros e He. apply In_nth_error in He as [r He].
  destruct (Forall2_nth _ _ _ _ _ F He) as (e' & E' & C & _). 
  eapply j_shape; [|apply (J' e'); eapply nth_error_In; eauto].
  destruct C as (_ & _ & _ & _ & C1 & C2 & C3). unfold K. now rewrite C1, C2, C3.
Qed.

Lemma evolve_tally n m lat fuel S o st st' : Procs n (map fst st) -> Alive (map fst st) -> AllJ (map fst st) ->
  par_evolve m lat fuel S o st = Ok st' -> Tally n st' /\ map V (map fst st') = map (map ptick) (map V (map fst st)).
Proof.
  intros P A Js H. destruct (evolve_roads _ _ _ _ _ _ _ _ P Js H) as (st6 & st7 & P6 & J6 & H7 & V6 & F).
  assert (A6 : Alive (map fst st6)) by (apply alive_iff; rewrite V6; apply alive_tick; now apply alive_iff).
  destruct (update_tally _ _ _ _ _ P6 A6 J6 H7) as [[P7 A7 J7 T7] Pe].
  assert (Vs : map V (map fst st') = map V (map fst st7)).
  { clear -F. induction F as [|? ? ? ? [(E & _) _] _ IH]; [reflexivity|]. cbn. unfold V at 1 3. now rewrite E, IH. }
  split; [|rewrite Vs, (update_view _ _ _ _ _ P6 H7); exact V6]. split.
  - exact (procs_evolve _ _ _ _ _ _ _ _ P H).
  - apply alive_iff. rewrite Vs. now apply alive_iff.
  - intros e' He. apply In_nth_error in He as [r He]. destruct (Forall2_nth_inv _ _ _ _ _ F He) as (e & E & C & _).
    eapply j_shape; [|apply (J7 e); eapply nth_error_In; eauto].
    destruct C as (_ & _ & _ & _ & C1 & C2 & C3). unfold K. now rewrite C1, C2, C3.
  - intros e' He. apply In_nth_error in He as [r He]. destruct (Forall2_nth_inv _ _ _ _ _ F He) as (e & E & C & _).
    destruct C as (_ & _ & _ & C & _). rewrite C, (T7 e) by (eapply nth_error_In; eauto). rewrite !people_views. now rewrite Vs.
Qed.

Lemma local_agents f st st' : (forall e g e' g', f e g = Ok (e', g') -> SameAgents e e') -> local f st = Ok st' ->
  map e_agents (map fst st') = map e_agents (map fst st).
Proof.
  intros F H. apply local_forall2 in H. induction H as [|e e' l l' (g & g' & E) _ IH]; [reflexivity|].
  cbn [map]. rewrite IH. f_equal. eapply F; eauto.
Qed.

Lemma total_step o S c e g e' g' : inherited c = true -> opens_closes_nothing (PEach c) = true -> J e ->
  step o S c e g = Ok (e', g') -> e_total_agents e' = e_total_agents e.
Proof.
  intros Hc Ho (_ & _ & D) E.
  assert (W : forall a b, Fx a b -> e_total_agents b = e_total_agents a) by (intros a b [H _]; exact (f_equal e_total_agents H)).
  destruct c; try discriminate Hc; try discriminate Ho; cbn [step] in E.
  7:{ injection E as <- <-. reflexivity. }
  all: rstep E; injection E as <- <-.
  - apply link_up_spec in E0 as (i1 & i2 & e0 & did & _ & _ & L1 & L2 & C & ->).
    destruct C as [(-> & -> & ->)|(a & -> & -> & ->)]; reflexivity.
  - eapply W, fx_set_attr; eauto.
  - eapply W, fx_close_camp; eauto.
  - eapply W, fx_open_camp; eauto.
  - eapply W, fx_change_type; eauto.
  - eapply W, fx_forced; eauto.
  - unfold enact_border_closures in E0. rewrite D in E0. now injection E0 as <-.
  - eapply W, fx_refresh; eauto.
  - eapply W, fx_add_conflict; eauto.
  - eapply W, fx_remove_conflict; eauto.
  - eapply W, fx_set_intensity; eauto.
  - eapply W, fx_update_attributes; eauto.
  - eapply W, fx_add_new_conflict_zones; eauto.
Qed.

Lemma j_plus e e' z : sk e' = plus_total z (sk e) -> J e -> J e'.
Proof.
  intro H. apply j_shape. unfold K. rewrite <- (map_length kk (e_links e')), <- (map_length kk (e_links e)).
  change (e_closures e') with (e_closures (sk e')). change (map lk (e_locations e')) with (e_locations (sk e')).
  change (map kk (e_links e')) with (e_links (sk e')). now rewrite H.
Qed.

Lemma people_held st : people st = sumZ (map (fun r => Z.of_nat (List.length (held st r))) (seq 0 (List.length st))).
Proof. apply people_seq. Qed.

Lemma held_step n o S c k st st' : Procs n (map fst st) -> added_by c = Some k -> pstep o S c st = Ok st' ->
  forall t, (forall e, In e (map fst st) -> e_total_agents e = t) ->
  List.length st' = List.length st /\
  (forall r, (r < n)%nat -> Z.of_nat (List.length (held st' r)) =
     (Z.of_nat (List.length (held st r)) + Z.of_nat (List.length (turns (Z.of_nat n) (Z.of_nat r) t k)))%Z) /\
  (forall e, In e (map fst st') -> e_total_agents e = (t + Z.of_nat k)%Z).
Proof.
  intros P C H t T. pose proof (pstep_procs _ _ _ _ _ _ P H) as P'.
  pose proof (pr_len _ _ P) as L. pose proof (pr_len _ _ P') as L'. rewrite map_length in L, L'.
  split; [congruence|]. pose proof (add_calls _ _ _ _ _ _ _ P C H) as A. split.
  - intros r R. rewrite !held_nth. destruct (nth_error (map fst st) r) as [e|] eqn:E.
    2:{ apply nth_error_None in E. rewrite map_length in E. lia. }
    destruct (A r e E) as (e' & new & E' & G & Ln & _). rewrite E', G, app_length, Ln, (T e) by (eapply nth_error_In; eauto). lia.
  - intros e' He. apply In_nth_error in He as [r He].
    assert (R : (r < n)%nat).
    { assert (X : nth_error (map fst st') r <> None) by congruence. apply nth_error_Some in X. rewrite map_length in X. lia. }
    destruct (nth_error (map fst st) r) as [e|] eqn:E.
    2:{ apply nth_error_None in E. rewrite map_length in E. lia. }
    destruct (A r e E) as (e1 & new & E' & G & Ln & Tt). rewrite He in E'. injection E' as <-.
    rewrite Tt, (T e) by (eapply nth_error_In; eauto). reflexivity.
Qed.

Lemma tally_step n o S c st st' : Tally n st -> opens_closes_nothing c = true -> pstep o S c st = Ok st' -> Tally n st'.
Proof.
  intros [P A Js T] Ho H. pose proof (pstep_procs _ _ _ _ _ _ P H) as P'. pose proof (alive_pstep _ _ _ _ _ _ P A H) as A'.
  assert (AddCase : forall k, added_by c = Some k -> AllJ (map fst st') -> Tally n st').
  { intros k C J'. split; auto. intros e' He.
    destruct (held_step _ _ _ _ _ _ _ P C H (people st) T) as (L & Hl & Ht). rewrite (Ht e' He).
    rewrite !people_seq, L. pose proof (pr_len _ _ P) as Ln. rewrite map_length in Ln. rewrite Ln.
    rewrite (sumZ_ext (fun r => Z.of_nat (List.length (held st' r)))
      (fun r => Z.of_nat (List.length (held st r)) + Z.of_nat (List.length (turns (Z.of_nat n) (Z.of_nat r) (people st) k)))%Z).
    2:{ intros r Hr. apply in_seq in Hr. apply Hl. lia. }
    rewrite sumZ_add, turns_sum; [reflexivity|]. destruct n; [|lia].
    rewrite Ln in L. destruct st'; [destruct He|discriminate]. }
  destruct c; cbn [pstep] in H.
  - destruct (inherited c) eqn:Hc; [|discriminate]. 
    pose proof (local_agents _ _ _ (fun e g e' g' E => sa_step _ _ _ _ _ _ _ Hc E) H) as G.
    apply local_forall2 in H. split; auto.
    + eapply allj_rel; [exact Js|exact H|]. intros e e' _ (g & g' & E) Je. eapply j_step; eauto.
    + intros e' He. apply In_nth_error in He as [i He]. destruct (Forall2_nth_inv _ _ _ _ _ H He) as (e & He0 & g & g' & E).
      apply nth_error_In in He0. rewrite (total_step _ _ _ _ _ _ _ Hc Ho (Js e He0) E), (T e He0).
      rewrite !people_lists. now rewrite G.
  - pose proof (local_agents _ _ _ (fun e g e' g' E => sa_add_location _ _ _ _ _ _ _ _ _ _ _ _ _ _ _ _ _ E) H) as G.
    apply local_forall2 in H. split; auto.
    + eapply allj_rel; [exact Js|exact H|]. intros e e' _ (g & g' & E) Je. eapply j_add_location; eauto.
    + intros e' He. apply In_nth_error in He as [i He]. destruct (Forall2_nth_inv _ _ _ _ _ H He) as (e & He0 & g & g' & E).
      apply nth_error_In in He0. destruct (add_location_sk _ _ _ _ _ _ _ _ _ _ _ _ _ _ _ _ _ E) as (l & _ & _ & X).
      apply (f_equal e_total_agents) in X. cbn in X. rewrite X, (T e He0). rewrite !people_lists. now rewrite G.
  - apply (AddCase 1%nat eq_refl). apply local2_rel in H. eapply allj_rel; [exact Js|exact H|].
    intros e e' _ (a & E). apply par_add_spec in E as (_ & _ & X & _). exact (j_plus _ _ _ X).
  - apply (AddCase 1%nat eq_refl). apply local2_rel in H. eapply allj_rel; [exact Js|exact H|].
    intros e e' _ (a & E). apply par_own_spec in E as (_ & _ & X & _). exact (j_plus _ _ _ X).
  - apply (AddCase (Z.to_nat number) eq_refl). apply local2_rel in H. eapply allj_rel; [exact Js|exact H|].
    intros e e' _ (a & E). apply par_insert_many_spec in E as (_ & _ & X & _). exact (j_plus _ _ _ X).
  - apply collective_clear in H as (es & H1 & H2). pose proof (clear_procs _ _ _ _ P H1) as P1.
    assert (L : List.length es = List.length (map snd st)).
    { apply mapM_Forall2, Forall2_len in H1. rewrite map_length in *. congruence. }
    assert (A1 : Alive es /\ AllJ es).
    { apply mapM_Forall2 in H1. split.
      - eapply alive_rel; [exact A|exact H1|]. intros e e' _ E a Ha. left. exact (clear_subset names e e' E a Ha).
      - intros e' He. apply In_nth_error in He as [i He]. destruct (Forall2_nth_inv _ _ _ _ _ H1 He) as (e & He0 & E).
        apply nth_error_In in He0. exact (j_fx _ _ (proj2 (par_clear_spec names e e' (procs_par _ _ _ P He0) E)) (Js e He0)). }
    destruct A1 as [A1 J1]. rewrite <- (combine_fst es (map snd st) L) in P1, A1, J1.
    exact (proj1 (update_tally _ _ _ _ _ P1 A1 J1 H2)).
  - exact (proj1 (update_tally _ _ _ _ _ P A Js H)).
  - exact (proj1 (evolve_tally _ _ _ _ _ _ _ _ P A Js H)).
Qed.

Lemma tally_start gs : Tally (List.length gs) (pstart gs).
Proof.
  assert (E0 : forall e, In e (map fst (pstart gs)) -> exists r n, e = empty_par r n).
  { intros e He. apply in_map_iff in He as ([e1 g] & <- & He). apply in_combine_l in He.
    apply in_map_iff in He as (r & <- & _). do 2 eexists. reflexivity. }
  assert (Pe : people (pstart gs) = 0%Z).
  { rewrite people_lists. assert (W : forall es, (forall e, In e es -> exists r n, e = empty_par r n) ->
      sumZ (map (fun l => Z.of_nat (List.length l)) (map e_agents es)) = 0%Z).
    { clear. induction es as [|e es IH]; intro H; [reflexivity|]. cbn. rewrite IH by (intros; apply H; now right).
      destruct (H e (or_introl eq_refl)) as (r & n & ->). reflexivity. }
    apply W, E0. }
  split; [apply procs_start|apply alive_start| |].
  - intros e He. destruct (E0 e He) as (r & n & ->). split; [apply Permutation_refl|]. split; [intros l []|reflexivity].
  - intros e He. rewrite Pe. destruct (E0 e He) as (r & n & ->). reflexivity.
Qed.

Lemma tally_run n o h : forall st st', Tally n st -> (forall S c, In (S, c) h -> opens_closes_nothing c = true) ->
  prun o h st = Ok st' -> Tally n st'.
Proof.
  induction h as [|[S c] h IH]; intros st st' T N H; [now injection H as <-|].
  unfold prun in H. cbn [foldM fst snd] in H. apply bind_ok in H as (st1 & H1 & H).
  eapply IH; [eapply tally_step; [exact T|apply (N S c); now left|exact H1]|intros; eapply N; right; eauto|exact H].
Qed.

(** ** Balance over whole programs *)

Definition Shares (n : nat) (st : list (eco * rng)) : Prop :=
  forall r, (r < n)%nat -> Z.of_nat (List.length (held st r)) =
    Z.of_nat (List.length (turns (Z.of_nat n) (Z.of_nat r) 0 (Z.to_nat (people st)))).

Lemma people_pos st : (0 <= people st)%Z.
Proof. unfold people. induction st; cbn; lia. Qed.

Lemma shares_same n st st' : (forall r, List.length (held st' r) = List.length (held st r)) ->
  List.length st' = List.length st -> Shares n st -> Shares n st'.
Proof.
  intros H L Sh r R. assert (E : people st' = people st).
  { rewrite !people_seq, L. apply sumZ_ext. intros; now rewrite H. }
  rewrite H, E. now apply Sh.
Qed.
Lemma held_lists st st' : map e_agents (map fst st') = map e_agents (map fst st) -> forall r, held st' r = held st r.
Proof.
  intros H r. rewrite !held_nth. apply (f_equal (fun l => nth_error l r)) in H. rewrite !nth_error_map in *.
  destruct (nth_error st' r), (nth_error st r); cbn in *; congruence.
Qed.
Lemma held_views st st' (u : list (nat * dict * Z * option nat) -> list (nat * dict * Z * option nat)) :
  (forall l, List.length (u l) = List.length l) ->
  map V (map fst st') = map u (map V (map fst st)) -> forall r, List.length (held st' r) = List.length (held st r).
Proof.
  intros U H r. rewrite !held_nth. apply (f_equal (fun l => nth_error l r)) in H. rewrite !nth_error_map in *.
  destruct (nth_error st' r) as [[e' g']|], (nth_error st r) as [[e g]|]; cbn in *; try congruence.
  injection H as H. unfold V in H. apply (f_equal (@List.length _)) in H. now rewrite U, !map_length in H.
Qed.

Lemma shares_step n o S c st st' : Tally n st -> Shares n st -> opens_closes_nothing c = true -> clears c = false ->
  pstep o S c st = Ok st' -> Shares n st'.
Proof.
  intros Ta Sh Ho Hcl H. destruct Ta as [P A Js T]. pose proof (pstep_procs _ _ _ _ _ _ P H) as P'.
  assert (L : List.length st' = List.length st).
  { rewrite <- (map_length fst st'), <- (map_length fst st), (pr_len _ _ P), (pr_len _ _ P'). reflexivity. }
  assert (AddCase : forall k, added_by c = Some k -> Shares n st').
  { intros k C r R. destruct (held_step _ _ _ _ _ _ _ P C H (people st) T) as (_ & Hl & Ht).
    assert (Pe : people st' = (people st + Z.of_nat k)%Z).
    { rewrite !people_seq, L. pose proof (pr_len _ _ P) as Ln. rewrite map_length in Ln. rewrite Ln.
      rewrite (sumZ_ext (fun r => Z.of_nat (List.length (held st' r)))
        (fun r => Z.of_nat (List.length (held st r)) + Z.of_nat (List.length (turns (Z.of_nat n) (Z.of_nat r) (people st) k)))%Z).
      2:{ intros q Hq. apply in_seq in Hq. apply Hl. lia. }
      rewrite sumZ_add, turns_sum by lia. reflexivity. }
    rewrite (Hl r R), (Sh r R), Pe, !turns_count by lia. pose proof (people_pos st).
    rewrite Z2Nat.id by lia. rewrite Z2Nat.id by lia.
    replace (0 + (people st + Z.of_nat k) - Z.of_nat r)%Z with (people st + Z.of_nat k - Z.of_nat r)%Z by lia.
    replace (0 + people st - Z.of_nat r)%Z with (people st - Z.of_nat r)%Z by lia. lia. }
  destruct c; try discriminate Hcl; try (eapply AddCase; reflexivity); cbn [pstep] in H.
  - destruct (inherited c) eqn:Hc; [|discriminate].
    pose proof (local_agents _ _ _ (fun e g e' g' E => sa_step _ _ _ _ _ _ _ Hc E) H) as G.
    eapply shares_same; [|exact L|exact Sh]. intro r. now rewrite (held_lists _ _ G).
  - pose proof (local_agents _ _ _ (fun e g e' g' E => sa_add_location _ _ _ _ _ _ _ _ _ _ _ _ _ _ _ _ _ E) H) as G.
    eapply shares_same; [|exact L|exact Sh]. intro r. now rewrite (held_lists _ _ G).
  - apply (update_view _ _ _ _ _ P) in H. eapply shares_same; [|exact L|exact Sh].
    apply (held_views st st' (fun l => l)); [reflexivity|]. now rewrite map_id.
  - eapply evolve_tally in H as [_ H]; eauto. eapply shares_same; [|exact L|exact Sh].
    apply (held_views st st' (map ptick)); [intro; apply map_length|exact H].
Qed.

Lemma shares_start gs : Shares (List.length gs) (pstart gs).
Proof.
  intros r R. assert (Hh : forall q, held (pstart gs) q = []).
  { intro q. rewrite held_nth. destruct (nth_error (map fst (pstart gs)) q) as [e|] eqn:E; [|reflexivity].
    apply nth_error_In, in_map_iff in E as ([e1 g] & <- & E). apply in_combine_l in E.
    apply in_map_iff in E as (x & <- & _). reflexivity. }
  rewrite people_seq, (sumZ_ext _ (fun _ => 0%Z)), sumZ_zero by (intros; now rewrite Hh). rewrite Hh. reflexivity.
Qed.

Lemma shares_run n o h : forall st st', Tally n st -> Shares n st ->
  (forall S c, In (S, c) h -> opens_closes_nothing c = true /\ clears c = false) ->
  prun o h st = Ok st' -> Shares n st'.
Proof.
  induction h as [|[S c] h IH]; intros st st' T Sh N H; [now injection H as <-|].
  unfold prun in H. cbn [foldM fst snd] in H. apply bind_ok in H as (st1 & H1 & H).
  destruct (N S c (or_introl eq_refl)).
  eapply IH; [eapply tally_step; eauto|eapply shares_step; eauto|intros; eapply N; right; eauto|exact H].
Qed.
Lemma whole_run_balanced o h gs st : (forall S c, In (S, c) h -> opens_closes_nothing c = true /\ clears c = false) ->
  prun o h (pstart gs) = Ok st ->
  forall r s, (r < List.length gs)%nat -> (s < List.length gs)%nat ->
    (List.length (held st r) <= List.length (held st s) + 1)%nat.
Proof.
  intros N H r s R Ss.
  pose proof (shares_run _ _ _ _ _ (tally_start gs) (shares_start gs) N H) as Sh.
  pose proof (Sh r R). pose proof (Sh s Ss).
  pose proof (turns_balance (Z.of_nat (List.length gs)) (Z.of_nat r) (Z.of_nat s) 0 (Z.to_nat (people st)) ltac:(lia) ltac:(lia)). lia.
Qed.
