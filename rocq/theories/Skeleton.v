(** * Skeleton: the part of an ecosystem that is the same on all processes *)

From Coq Require Import Lia.
From Verif Require Import Base State Moving Crawling Scoring Diagnostics Flee DataTable
  Spawning InputGeography Api Pflee ParApi SpecAgents Lemmas Inv InvMoves InvStruct Frames
  ScoreFrames Travel Profile ReportProofs.
Local Open Scope list_scope.

(** Names, countries, roads, closures, clock and number of agents of the whole run *)
Definition lk (l : location) : location :=
  Location (l_name l) "" 0 0 0 (l_links l) (l_closed_links l) [] [] 0 0 0 0 false (l_country l) 0
    false false false false false false 0 0 0 0%nat 0 0 [].
Definition kk (k : link) : link :=
  Link (k_startpoint k) (k_endpoint k) (k_closed k) 0 0 0 0 false 0 [].
Definition sk (e : eco) : eco :=
  Eco (map lk (e_locations e)) (e_locationNames e) (map kk (e_links e)) [] [] (e_closures e)
    (e_time e) [] [] [] [] [] (e_par e) 0 (e_mpi_size e) (e_total_agents e).

(** Two processes of the same program *)
Definition Twin (a b : eco) : Prop := sk a = sk b.
(** A call that leaves the skeleton and the number of the process alone *)
Definition Fx (a b : eco) : Prop := sk b = sk a /\ e_rank b = e_rank a.

Lemma fx_refl e : Fx e e. Proof. split; reflexivity. Qed.
Lemma fx_trans a b c : Fx a b -> Fx b c -> Fx a c.
Proof. intros [A B] [C D]; split; congruence. Qed.
#[export] Hint Resolve fx_refl : core.

Lemma fx_up_loc i f e : (forall l, lk (f l) = lk l) -> Fx e (up_loc i f e).
Proof. intro H; split; [|reflexivity]. unfold sk; cbn [up_loc up_e_locations e_locations e_locationNames e_links e_closures e_time e_par e_mpi_size e_total_agents]. now rewrite (map_upd lk). Qed.
Lemma fx_locs f e : map lk (f (e_locations e)) = map lk (e_locations e) -> Fx e (up_e_locations f e).
Proof. intro H; split; [|reflexivity]. unfold sk; cbn [up_e_locations e_locations e_locationNames e_links e_closures e_time e_par e_mpi_size e_total_agents]. now rewrite H. Qed.
Lemma fx_up_link i f e : (forall k, kk (f k) = kk k) -> Fx e (up_link i f e).
Proof. intro H; split; [|reflexivity]. unfold sk; cbn [up_link up_e_links e_locations e_locationNames e_links e_closures e_time e_par e_mpi_size e_total_agents]. now rewrite (map_upd kk). Qed.
Lemma fx_agents f e : Fx e (up_e_agents f e). Proof. split; reflexivity. Qed.
Lemma fx_dicts f e : Fx e (up_e_dicts f e). Proof. split; reflexivity. Qed.
#[export] Hint Resolve fx_agents fx_dicts : core.

Lemma fx_mov e e' : Mov e e' -> Fx e e'.
Proof.
  intros [A B C]. split; [|now rewrite A].
  assert (L : map lk (e_locations e') = map lk (e_locations e)) by exact (map_via lfix lk _ _ B).
  assert (K : map kk (e_links e') = map kk (e_links e)) by exact (map_via kfix kk _ _ C).
  unfold sk. rewrite L, K. rewrite A; reflexivity.
Qed.
Lemma fx_sc e e' : Sc e e' -> Fx e e'.
Proof.
  intros [A B]. split; [|now rewrite A].
  assert (L : map lk (e_locations e') = map lk (e_locations e)) by exact (map_via lsc lk _ _ B).
  unfold sk. rewrite L. rewrite A; reflexivity.
Qed.

Lemma fx_foldM {A} (f : eco -> A -> res eco) l e e' :
  (forall e a e', f e a = Ok e' -> Fx e e') -> foldM f l e = Ok e' -> Fx e e'.
Proof. intros H F. eapply (foldM_rel Fx) in F; eauto using fx_trans. Qed.
Lemma fx_foldM2 {A} (f : eco * rng -> A -> res (eco * rng)) l e g e' g' :
  (forall e g a e' g', f (e, g) a = Ok (e', g') -> Fx e e') -> foldM f l (e, g) = Ok (e', g') -> Fx e e'.
Proof.
  intros H F. eapply (foldM_rel (fun a b => Fx (fst a) (fst b))) in F; eauto using fx_trans.
  intros [e1 g1] a [e2 g2] _ F1. cbn [fst]. eauto.
Qed.

(** ** Calls that leave the skeleton alone *)

Lemma fx_refresh S e e' : refresh_spawn_weights S e = Ok e' -> Fx e e'.
Proof. unfold refresh_spawn_weights; intro H; rinv H. split; reflexivity. Qed.
Lemma fx_on_named n f e e' : (forall l, lk (f l) = lk l) -> on_named_loc n f e = Ok e' -> Fx e e'.
Proof. unfold on_named_loc; intros L H; rinv H. now apply fx_up_loc. Qed.
Lemma fx_close_camp S n i e e' : close_camp S n i e = Ok e' -> Fx e e'.
Proof. apply fx_on_named. intro l; reflexivity. Qed.
Lemma fx_open_camp S n i e e' : open_camp S n i e = Ok e' -> Fx e e'.
Proof. apply fx_on_named. intro l. unfold loc_open_camp. destruct i; reflexivity. Qed.
Lemma fx_change_type S n t e e' : change_location_type S n t e = Ok e' -> Fx e e'.
Proof.
  unfold change_location_type; cbv zeta; intro H.
  repeat match type of H with (if ?b then _ else _) = _ => destruct b end;
    try (eapply fx_on_named; [|exact H]; intro l; try destruct (str_in _ _); reflexivity);
    (apply bind_ok in H as (? & _ & H); discriminate).
Qed.
Lemma fx_forced n m v e e' : set_forced_redirection n m v e = Ok e' -> Fx e e'.
Proof.
  unfold set_forced_redirection; intro H. rstep H. eapply fx_foldM; [|exact H]; cbv beta iota.
  intros e1 k e2 H1. do 2 rstep H1. destruct (String.eqb _ _); injection H1 as <-; auto.
  apply fx_up_link. intro; reflexivity.
Qed.
Lemma fx_add_conflict S n q c e e' : add_conflict_zone S n q c e = Ok e' -> Fx e e'.
Proof.
  unfold add_conflict_zone; intro H. destruct (first_index _ _ _); [|injection H as <-; auto].
  rstep H. eapply fx_trans; [|eapply fx_refresh; exact H]. apply fx_up_loc. intro l. destruct c; reflexivity.
Qed.
Lemma fx_remove_conflict S n c e e' : remove_conflict_zone S n c e = Ok e' -> Fx e e'.
Proof.
  unfold remove_conflict_zone; intro H. rstep H. eapply fx_trans; [|eapply fx_refresh; exact H].
  eapply fx_foldM; [|exact E]; cbv beta iota. intros e1 i e2 H1. rstep H1. destruct (String.eqb _ _); [|injection H1 as <-; auto].
  rstep H1. injection H1 as <-. apply fx_up_loc. intro l; destruct c; reflexivity.
Qed.
Lemma fx_set_intensity S n q c e e' : set_conflict_intensity S n q c e = Ok e' -> Fx e e'.
Proof. unfold set_conflict_intensity. destruct (Qltb _ _); [apply fx_remove_conflict|apply fx_add_conflict]. Qed.
Lemma fx_set_attr i k v e e' : set_loc_attribute i k v e = Ok e' -> Fx e e'.
Proof. unfold set_loc_attribute; intro H. do 2 rstep H. injection H as <-. auto. Qed.
Lemma fx_update_attributes ig a t e e' : update_attributes ig a t e = Ok e' -> Fx e e'.
Proof.
  unfold update_attributes; intro H. rstep H. eapply fx_foldM; [|exact H]; cbv beta iota.
  intros e1 x e2 H1. do 2 rstep H1. eapply fx_set_attr; eauto.
Qed.
Lemma fx_add_new_conflict_zones S f ig t e e' :
  add_new_conflict_zones S f ig t e = Ok e' -> Fx e e'.
Proof.
  unfold add_new_conflict_zones; intro H; do 2 rstep H.
  assert (S1 : Fx e v0).
  { unfold apply_changes in E0. eapply fx_foldM; [|exact E0]; cbv beta iota.
    intros s c s' Hs. do 2 rstep Hs. rstep Hs; [|rinv Hs; auto]. do 2 rstep Hs.
    eapply fx_change_type; eauto. }
  eapply fx_trans; [exact S1|]. rstep H; [|rstep H].
  - rstep H. rstep H.
    + eapply fx_trans; eapply fx_update_attributes; eauto.
    + rinv H. eapply fx_update_attributes; eauto.
  - eapply fx_foldM; [|exact H]; cbv beta iota.
    intros s [n vs] s' Hs. unfold conflict_step in Hs.
    rstep Hs; [discriminate|]. do 2 rstep Hs.
    assert (S2 : Fx s v2).
    { rinv E2; auto; first [eapply fx_set_intensity; eassumption | eapply fx_add_conflict; eassumption]. }
    eapply fx_trans; [exact S2|].
    rinv Hs; auto. eapply fx_set_intensity; eauto.
  - unfold conflicts_from_locations in H. eapply fx_foldM; [|exact H]; cbv beta iota.
    intros s l s' Hs. rstep Hs. rstep Hs; [|rinv Hs; auto]. do 2 rstep Hs.
    rstep Hs; [|rinv Hs; auto]. do 3 rstep Hs. eapply fx_add_conflict; eauto.
Qed.
Lemma fx_write_agents S e e' : write_agents S e = Ok e' -> Fx e e'.
Proof. unfold write_agents; intro H; rinv H; split; reflexivity. Qed.
Lemma fx_write_links S e e' : write_links S e = Ok e' -> Fx e e'.
Proof. unfold write_links; intro H; rinv H; split; reflexivity. Qed.
Lemma fx_update_recent S e e' : update_recent S e = Ok e' -> Fx e e'.
Proof. unfold update_recent; intro H; rstep H; injection H as <-. auto. Qed.
Lemma fx_aggregate S e : Fx e (aggregate_arrivals S e).
Proof.
  unfold aggregate_arrivals. destruct (0 <? s_log_camp S)%Z; auto. cbv zeta.
  eapply fx_trans; [|split; reflexivity].
  apply fx_locs. rewrite map_map. apply map_ext. intro l. destruct (l_camp l); reflexivity.
Qed.

(** ** Calls that change roads: they do the same on all processes *)

Lemma twin_refl e : Twin e e. Proof. reflexivity. Qed.
Lemma twin_sym a b : Twin a b -> Twin b a. Proof. unfold Twin; congruence. Qed.
Lemma twin_trans a b c : Twin a b -> Twin b c -> Twin a c. Proof. unfold Twin; congruence. Qed.
Lemma twin_fx a b a' b' : Twin a b -> Fx a a' -> Fx b b' -> Twin a' b'.
Proof. unfold Twin; intros H [A _] [B _]; congruence. Qed.

Lemma twin_locs a b : Twin a b -> map lk (e_locations a) = map lk (e_locations b).
Proof. intro H. exact (f_equal e_locations H). Qed.
Lemma twin_links a b : Twin a b -> map kk (e_links a) = map kk (e_links b).
Proof. intro H. exact (f_equal e_links H). Qed.
Lemma twin_names a b : Twin a b -> e_locationNames a = e_locationNames b.
Proof. intro H. exact (f_equal e_locationNames H). Qed.
Lemma twin_closures a b : Twin a b -> e_closures a = e_closures b.
Proof. intro H. exact (f_equal e_closures H). Qed.
Lemma twin_total a b : Twin a b -> e_total_agents a = e_total_agents b.
Proof. intro H. exact (f_equal e_total_agents H). Qed.
Lemma twin_size a b : Twin a b -> e_mpi_size a = e_mpi_size b.
Proof. intro H. exact (f_equal e_mpi_size H). Qed.
Lemma twin_par a b : Twin a b -> e_par a = e_par b.
Proof. intro H. exact (f_equal e_par H). Qed.
Lemma twin_time a b : Twin a b -> e_time a = e_time b.
Proof. intro H. exact (f_equal e_time H). Qed.

Lemma twin_loc a b i l m : Twin a b -> loc_of a i = Ok l -> loc_of b i = Ok m -> lk l = lk m.
Proof.
  intros H A B. unfold loc_of in *. apply of_option_ok in A, B.
  apply (map_nth_error lk) in A, B. rewrite (twin_locs _ _ H) in A. congruence.
Qed.
Lemma twin_link a b i l m : Twin a b -> link_of a i = Ok l -> link_of b i = Ok m -> kk l = kk m.
Proof.
  intros H A B. unfold link_of in *. apply of_option_ok in A, B.
  apply (map_nth_error kk) in A, B. rewrite (twin_links _ _ H) in A. congruence.
Qed.
Lemma twin_convert a b n : Twin a b -> convert_name a n = convert_name b n.
Proof.
  intro H. unfold convert_name.
  assert (E : map lname (e_locations a) = map lname (e_locations b)).
  { pose proof (twin_locs _ _ H) as L. exact (map_via lk lname _ _ L). }
  now rewrite E.
Qed.

Lemma sk_up_loc i f e : (forall l, lk (f l) = f (lk l)) -> sk (up_loc i f e) = up_loc i f (sk e).
Proof.
  intro H. unfold sk, up_loc, up_e_locations; cbn [e_locations e_locationNames e_links e_closures e_time e_par e_mpi_size e_total_agents e_dicts e_agents e_spawn_weights e_num_arrivals e_travel_durations e_agents_out e_links_out e_rank].
  f_equal. apply map_upd2. exact H.
Qed.
Lemma sk_up_link i f e : (forall l, kk (f l) = f (kk l)) -> sk (up_link i f e) = up_link i f (sk e).
Proof.
  intro H. unfold sk, up_link, up_e_links; cbn [e_locations e_locationNames e_links e_closures e_time e_par e_mpi_size e_total_agents e_dicts e_agents e_spawn_weights e_num_arrivals e_travel_durations e_agents_out e_links_out e_rank].
  f_equal. apply map_upd2. exact H.
Qed.
Lemma sk_app_link k e : sk (up_e_links (fun h => h ++ [k]) e) = up_e_links (fun h => h ++ [kk k]) (sk e).
Proof. unfold sk, up_e_links; cbn. now rewrite map_app. Qed.

Lemma twin_len_links a b : Twin a b -> List.length (e_links a) = List.length (e_links b).
Proof. intro H. exact (map_eq_length _ _ _ _ (twin_links _ _ H)). Qed.
Lemma twin_len_locs a b : Twin a b -> List.length (e_locations a) = List.length (e_locations b).
Proof. intro H. exact (map_eq_length _ _ _ _ (twin_locs _ _ H)). Qed.

Definition kcopy (k : link) : link :=
  up_k_numAgentsOnRank (fun _ => 0%Z) (up_k_numAgents (fun _ => 0%Z) (up_k_closed (fun _ => true) k)).

Lemma foldM_twin {A T} (R : T -> T -> Prop) (f g : T -> A -> res T) l : forall s t s' t',
  (forall s t a s' t', R s t -> f s a = Ok s' -> g t a = Ok t' -> R s' t') ->
  R s t -> foldM f l s = Ok s' -> foldM g l t = Ok t' -> R s' t'.
Proof.
  induction l as [|a l IH]; cbn [foldM]; intros s t s' t' H I F G.
  - injection F as <-; injection G as <-; exact I.
  - apply bind_ok in F as (s1 & F1 & F2). apply bind_ok in G as (t1 & G1 & G2).
    eapply IH; [exact H| |exact F2|exact G2]. eapply H; eauto.
Qed.

Definition TwinL (s t : eco * list nat * bool) : Prop :=
  Twin (fst (fst s)) (fst (fst t)) /\ snd (fst s) = snd (fst t) /\ snd s = snd t.
Definition TwinB (s t : eco * bool) : Prop := Twin (fst s) (fst t) /\ snd s = snd t.

Lemma twin_remove_step x ep co s t ki s' t' : TwinL s t ->
  remove_step x ep co s ki = Ok s' -> remove_step x ep co t ki = Ok t' -> TwinL s' t'.
Proof.
  destruct s as [[a n] r], t as [[b n'] r']. intros (H & En & Er) A B; cbn [fst snd] in *. subst n' r'.
  unfold remove_step in A, B. apply bind_ok in A as (k & Ka & A), B as (k' & Kb & B).
  pose proof (twin_link _ _ _ _ _ H Ka Kb) as Kk.
  apply bind_ok in A as (p & Pa & A), B as (p' & Pb & B).
  assert (Ee : k_endpoint k = k_endpoint k') by exact (f_equal k_endpoint Kk).
  unfold endpoint_of in Pa, Pb. rewrite <- Ee in Pb.
  pose proof (twin_loc _ _ _ _ _ H Pa Pb) as Pk.
  assert (En : l_name p = l_name p') by exact (f_equal l_name Pk).
  rewrite <- En in B. destruct (negb (py_is (l_name p) ep)).
  { injection A as <-; injection B as <-. repeat split; auto. }
  destruct co.
  - injection A as <-; injection B as <-. repeat split; auto. cbn [fst].
    rewrite (twin_len_links _ _ H).
    unfold Twin. rewrite !sk_up_loc by reflexivity. f_equal.
    rewrite !sk_app_link. fold (kcopy k) (kcopy k').
    replace (kk (kcopy k')) with (kk (kcopy k)).
    2:{ change (kcopy (kk k) = kcopy (kk k')). now rewrite Kk. }
    f_equal. rewrite !sk_up_link by reflexivity. now rewrite H.
  - injection A as <-; injection B as <-. repeat split; auto.
Qed.
Lemma twin_reopen_step x ep s t ki s' t' : TwinL s t ->
  reopen_step x ep s ki = Ok s' -> reopen_step x ep t ki = Ok t' -> TwinL s' t'.
Proof.
  destruct s as [[a n] r], t as [[b n'] r']. intros (H & En & Er) A B; cbn [fst snd] in *. subst n' r'.
  unfold reopen_step in A, B. apply bind_ok in A as (k & Ka & A), B as (k' & Kb & B).
  pose proof (twin_link _ _ _ _ _ H Ka Kb) as Kk.
  apply bind_ok in A as (p & Pa & A), B as (p' & Pb & B).
  assert (Ee : k_endpoint k = k_endpoint k') by exact (f_equal k_endpoint Kk).
  unfold endpoint_of in Pa, Pb. rewrite <- Ee in Pb.
  pose proof (twin_loc _ _ _ _ _ H Pa Pb) as Pk.
  assert (En : l_name p = l_name p') by exact (f_equal l_name Pk).
  rewrite <- En in B. destruct (negb (py_is (l_name p) ep)).
  { injection A as <-; injection B as <-. repeat split; auto. }
  injection A as <-; injection B as <-. repeat split; auto. cbn [fst].
  unfold Twin. rewrite !sk_up_link, !sk_up_loc by reflexivity. now rewrite H.
Qed.

Lemma twin_remove_1way s t co a b a' b' : Twin a b ->
  remove_link_1way s t co a = Ok a' -> remove_link_1way s t co b = Ok b' -> TwinB a' b'.
Proof.
  unfold remove_link_1way; intros H A B. rewrite <- (twin_convert _ _ s H) in B. cbv zeta in A, B.
  apply bind_ok in A as (l & La & A), B as (m & Lb & B).
  pose proof (twin_loc _ _ _ _ _ H La Lb) as Ll.
  assert (El : l_links l = l_links m) by exact (f_equal l_links Ll). rewrite <- El in B.
  apply bind_ok in A as ([[a1 n1] r1] & Fa & A), B as ([[b1 n2] r2] & Fb & B).
  injection A as <-; injection B as <-.
  assert (T : TwinL (a1, n1, r1) (b1, n2, r2)).
  { eapply foldM_twin; [| |exact Fa|exact Fb]; cbv beta iota; [|split; [exact H|split; reflexivity]].
    intros; eapply twin_remove_step; eauto. }
  destruct T as (T1 & T2 & T3); cbn [fst snd] in *. subst n2 r2. split; [|reflexivity]. cbn [fst].
  unfold Twin. rewrite !sk_up_loc by reflexivity. now rewrite T1.
Qed.
Lemma twin_reopen_1way s t a b a' b' : Twin a b ->
  reopen_link_1way s t a = Ok a' -> reopen_link_1way s t b = Ok b' -> TwinB a' b'.
Proof.
  unfold reopen_link_1way; intros H A B. rewrite <- (twin_convert _ _ s H) in B. cbv zeta in A, B.
  apply bind_ok in A as (l & La & A), B as (m & Lb & B).
  pose proof (twin_loc _ _ _ _ _ H La Lb) as Ll.
  assert (El : l_closed_links l = l_closed_links m) by exact (f_equal l_closed_links Ll). rewrite <- El in B.
  apply bind_ok in A as ([[a1 n1] r1] & Fa & A), B as ([[b1 n2] r2] & Fb & B).
  injection A as <-; injection B as <-.
  assert (T : TwinL (a1, n1, r1) (b1, n2, r2)).
  { eapply foldM_twin; [| |exact Fa|exact Fb]; cbv beta iota; [|split; [exact H|split; reflexivity]].
    intros; eapply twin_reopen_step; eauto. }
  destruct T as (T1 & T2 & T3); cbn [fst snd] in *. subst n2 r2. split; [|reflexivity]. cbn [fst].
  unfold Twin. rewrite !sk_up_loc by reflexivity. now rewrite T1.
Qed.
Lemma twin_remove s t tw co a b a' b' : Twin a b ->
  remove_link s t tw co a = Ok a' -> remove_link s t tw co b = Ok b' -> TwinB a' b'.
Proof. unfold remove_link; destruct tw; apply twin_remove_1way. Qed.
Lemma twin_reopen s t tw a b a' b' : Twin a b ->
  reopen_link s t tw a = Ok a' -> reopen_link s t tw b = Ok b' -> TwinB a' b'.
Proof. unfold reopen_link; destruct tw; apply twin_reopen_1way. Qed.
Lemma twin_close s t tw a b a' b' : Twin a b ->
  close_link s t tw a = Ok a' -> close_link s t tw b = Ok b' -> TwinB a' b'.
Proof. apply twin_remove. Qed.

Lemma twin_location_loop fuel m d i ni : forall ls j a b a' b', Twin a b ->
  change_location_loop fuel m d i ni ls j a = Ok a' ->
  change_location_loop fuel m d i ni ls j b = Ok b' -> Twin a' b'.
Proof.
  induction fuel as [|fuel IH]; intros ls j a b a' b' H A B; cbn [change_location_loop] in A, B;
    (destruct (nth_error ls j) as [ki|]; [|injection A as <-; injection B as <-; exact H]); [discriminate|].
  apply bind_ok in A as (k & Ka & A), B as (k' & Kb & B).
  pose proof (twin_link _ _ _ _ _ H Ka Kb) as Kk.
  apply bind_ok in A as (p & Pa & A), B as (p' & Pb & B).
  assert (Ee : k_endpoint k = k_endpoint k') by exact (f_equal k_endpoint Kk).
  unfold endpoint_of in Pa, Pb. rewrite <- Ee in Pb.
  pose proof (twin_loc _ _ _ _ _ H Pa Pb) as Pk.
  assert (En : l_name p = l_name p') by exact (f_equal l_name Pk).
  cbv zeta in A, B. rewrite <- En in B. destruct m.
  - apply bind_ok in A as (a1 & A1 & A), B as (b1 & B1 & B).
    assert (T1 : Twin a1 b1).
    { destruct d; [|injection A1 as <-; injection B1 as <-; exact H|];
      apply bind_ok in A1 as ([? ?] & C1 & A1), B1 as ([? ?] & C2 & B1);
      injection A1 as <-; injection B1 as <-; exact (proj1 (twin_close _ _ _ _ _ _ _ H C1 C2)). }
    destruct d; [eapply IH; [|exact A|exact B]; exact T1| |];
    (apply bind_ok in A as ([a2 h1] & A2 & A), B as ([b2 h2] & B2 & B);
     destruct (twin_close _ _ _ _ _ _ _ T1 A2 B2) as [T2 Eh]; cbn [fst snd] in T2, Eh; subst h2;
     destruct h1; [|eapply IH; [|exact A|exact B]; exact T2];
     apply bind_ok in A as (l & La & A), B as (l' & Lb & B);
     pose proof (twin_loc _ _ _ _ _ T2 La Lb) as Ll;
     assert (El : l_links l = l_links l') by exact (f_equal l_links Ll); rewrite <- El in B;
     eapply IH; [|exact A|exact B]; exact T2).
  - apply bind_ok in A as (a1 & A1 & A), B as (b1 & B1 & B).
    assert (T1 : Twin a1 b1).
    { destruct d; [|injection A1 as <-; injection B1 as <-; exact H|];
      apply bind_ok in A1 as ([? ?] & C1 & A1), B1 as ([? ?] & C2 & B1);
      injection A1 as <-; injection B1 as <-; exact (proj1 (twin_reopen _ _ _ _ _ _ _ H C1 C2)). }
    destruct d; [eapply IH; [|exact A|exact B]; exact T1| |];
    (apply bind_ok in A as ([a2 h1] & A2 & A), B as ([b2 h2] & B2 & B);
     destruct (twin_reopen _ _ _ _ _ _ _ T1 A2 B2) as [T2 Eh]; cbn [fst snd] in T2, Eh; subst h2;
     destruct h1; [|eapply IH; [|exact A|exact B]; exact T2];
     apply bind_ok in A as (l & La & A), B as (l' & Lb & B);
     pose proof (twin_loc _ _ _ _ _ T2 La Lb) as Ll;
     assert (El : l_closed_links l = l_closed_links l') by exact (f_equal l_closed_links Ll); rewrite <- El in B;
     eapply IH; [|exact A|exact B]; exact T2).
Qed.

Lemma twin_location fuel n m d a b a' b' : Twin a b ->
  change_location_1way fuel n m d a = Ok a' -> change_location_1way fuel n m d b = Ok b' -> TwinB a' b'.
Proof.
  unfold change_location_1way; intros H A B. rewrite <- (twin_names _ _ H) in B.
  eapply foldM_twin; [| |exact A|exact B]; cbv beta iota; [|split; [exact H|reflexivity]].
  intros [s x] [t y] i [s' x'] [t' y'] [T E] F G; cbn [fst snd] in *. subst y.
  apply bind_ok in F as (ni & Na & F), G as (ni' & Nb & G). rewrite (twin_names _ _ T) in Na.
  assert (ni' = ni) by congruence. subst ni'.
  destruct (String.eqb (sval ni) n); [|injection F as <- <-; injection G as <- <-; split; auto].
  apply bind_ok in F as (l & La & F), G as (l' & Lb & G).
  pose proof (twin_loc _ _ _ _ _ T La Lb) as Ll. cbv zeta in F, G.
  assert (E1 : l_links l = l_links l') by exact (f_equal l_links Ll).
  assert (E2 : l_closed_links l = l_closed_links l') by exact (f_equal l_closed_links Ll).
  rewrite <- E1, <- E2 in G.
  apply bind_ok in F as (s1 & F1 & F), G as (t1 & G1 & G). injection F as <- <-; injection G as <- <-.
  split; [|reflexivity]. eapply twin_location_loop; [exact T|exact F1|exact G1].
Qed.

Lemma twin_border_loop fuel dest m i ni : forall ls j a b a' b', Twin a b ->
  change_border_loop fuel dest m i ni ls j a = Ok a' ->
  change_border_loop fuel dest m i ni ls j b = Ok b' -> Twin a' b'.
Proof.
  induction fuel as [|fuel IH]; intros ls j a b a' b' H A B; cbn [change_border_loop] in A, B;
    (destruct (nth_error ls j) as [ki|]; [|injection A as <-; injection B as <-; exact H]); [discriminate|].
  apply bind_ok in A as (k & Ka & A), B as (k' & Kb & B).
  pose proof (twin_link _ _ _ _ _ H Ka Kb) as Kk.
  apply bind_ok in A as (p & Pa & A), B as (p' & Pb & B).
  assert (Ee : k_endpoint k = k_endpoint k') by exact (f_equal k_endpoint Kk).
  unfold endpoint_of in Pa, Pb. rewrite <- Ee in Pb.
  pose proof (twin_loc _ _ _ _ _ H Pa Pb) as Pk.
  assert (En : l_name p = l_name p') by exact (f_equal l_name Pk).
  assert (Ec : l_country p = l_country p') by exact (f_equal l_country Pk).
  rewrite <- En, <- Ec in B. destruct (String.eqb (l_country p) dest); [|eapply IH; [exact H|exact A|exact B]].
  apply bind_ok in A as ([a1 h1] & A1 & A), B as ([b1 h2] & B1 & B).
  assert (T : TwinB (a1, h1) (b1, h2)).
  { destruct m; [eapply twin_close|eapply twin_reopen]; eauto. }
  destruct T as [T E]; cbn [fst snd] in T, E; subst h2.
  destruct h1; [|eapply IH; [exact T|exact A|exact B]].
  apply bind_ok in A as (l & La & A), B as (l' & Lb & B).
  pose proof (twin_loc _ _ _ _ _ T La Lb) as Ll.
  assert (E1 : l_links l = l_links l') by exact (f_equal l_links Ll).
  assert (E2 : l_closed_links l = l_closed_links l') by exact (f_equal l_closed_links Ll).
  rewrite <- E1, <- E2 in B. eapply IH; [exact T|exact A|exact B].
Qed.

Lemma twin_border_1way fuel s d m a b a' b' : Twin a b ->
  change_border_1way fuel s d m a = Ok a' -> change_border_1way fuel s d m b = Ok b' -> Twin a' b'.
Proof.
  unfold change_border_1way; intros H A B. rewrite <- (twin_names _ _ H) in B.
  eapply foldM_twin; [| |exact A|exact B]; cbv beta iota; [|exact H].
  intros u v i u' v' T F G.
  apply bind_ok in F as (l & La & F), G as (l' & Lb & G).
  pose proof (twin_loc _ _ _ _ _ T La Lb) as Ll.
  assert (E1 : l_links l = l_links l') by exact (f_equal l_links Ll).
  assert (E2 : l_closed_links l = l_closed_links l') by exact (f_equal l_closed_links Ll).
  assert (E3 : l_country l = l_country l') by exact (f_equal l_country Ll).
  rewrite <- E1, <- E2, <- E3 in G.
  destruct (String.eqb (l_country l) s); [|injection F as <-; injection G as <-; exact T].
  apply bind_ok in F as (ni & Na & F), G as (ni' & Nb & G). rewrite (twin_names _ _ T) in Na.
  assert (ni' = ni) by congruence. subst ni'.
  eapply twin_border_loop; [exact T|exact F|exact G].
Qed.
Lemma twin_border fuel s d tw m a b a' b' : Twin a b ->
  change_border fuel s d tw m a = Ok a' -> change_border fuel s d tw m b = Ok b' -> Twin a' b'.
Proof.
  unfold change_border; intros H A B.
  apply bind_ok in A as (a1 & A1 & A), B as (b1 & B1 & B).
  pose proof (twin_border_1way _ _ _ _ _ _ _ _ H A1 B1) as T.
  destruct tw; [|injection A as <-; injection B as <-; exact T]. eapply twin_border_1way; eauto.
Qed.

Lemma twin_rmap (f : eco -> res (eco * bool)) a b a' b' :
  (forall x y, f a = Ok x -> f b = Ok y -> TwinB x y) ->
  rmap fst (f a) = Ok a' -> rmap fst (f b) = Ok b' -> Twin a' b'.
Proof.
  intros H A B. apply rmap_ok in A as (x & A & ->). apply rmap_ok in B as (y & B & ->).
  exact (proj1 (H _ _ A B)).
Qed.

Lemma twin_enact fuel S t tw a b a' b' : Twin a b ->
  enact_border_closures fuel S t tw a = Ok a' -> enact_border_closures fuel S t tw b = Ok b' -> Twin a' b'.
Proof.
  unfold enact_border_closures; intros H A B. rewrite <- (twin_closures _ _ H) in B.
  eapply foldM_twin; [| |exact A|exact B]; cbv beta iota; [|exact H].
  intros u v c u' v' T F G. unfold enact_one in F, G.
  apply bind_ok in F as (u1 & F1 & F), G as (v1 & G1 & G).
  assert (T1 : Twin u1 v1).
  { destruct (t =? c_start c)%Z; [|injection F1 as <-; injection G1 as <-; exact T].
    unfold enact_close in F1, G1.
    repeat match type of F1 with (if ?x then _ else _) = _ => destruct x end.
    - eapply twin_border; eauto.
    - eapply twin_rmap; [|exact F1|exact G1]. intros; eapply twin_location; eauto.
    - eapply twin_rmap; [|exact F1|exact G1]. intros; eapply twin_close; eauto.
    - eapply twin_fx; [exact T|eapply fx_close_camp; eauto|eapply fx_close_camp; eauto].
    - eapply twin_fx; [exact T|eapply fx_close_camp; eauto|eapply fx_close_camp; eauto].
    - eapply twin_fx; [exact T|eapply fx_forced; eauto|eapply fx_forced; eauto].
    - injection F1 as <-; injection G1 as <-; exact T. }
  destruct (t =? c_end c)%Z; [|injection F as <-; injection G as <-; exact T1].
  unfold enact_open in F, G.
  repeat match type of F with (if ?x then _ else _) = _ => destruct x end.
  - eapply twin_border; eauto.
  - eapply twin_rmap; [|exact F|exact G]. intros; eapply twin_location; eauto.
  - eapply twin_rmap; [|exact F|exact G]. intros; eapply twin_reopen; eauto.
  - eapply twin_fx; [exact T1|eapply fx_open_camp; eauto|eapply fx_open_camp; eauto].
  - eapply twin_fx; [exact T1|eapply fx_open_camp; eauto|eapply fx_open_camp; eauto].
  - eapply twin_fx; [exact T1|eapply fx_forced; eauto|eapply fx_forced; eauto].
  - injection F as <-; injection G as <-; exact T1.
Qed.

Lemma twin_link_up n1 n2 d f at_ a b a' b' : Twin a b ->
  link_up n1 n2 d f at_ a = Ok a' -> link_up n1 n2 d f at_ b = Ok b' -> Twin a' b'.
Proof.
  unfold link_up; intros H A B. rewrite <- (twin_names _ _ H) in B. cbv zeta in A, B.
  destruct (last_index n1 _ 0 None) as [i1|]; [|discriminate].
  destruct (last_index n2 _ 0 None) as [i2|]; [|discriminate].
  apply bind_ok in A as (? & _ & A), B as (? & _ & B).
  apply bind_ok in A as (? & _ & A), B as (? & _ & B).
  set (ea := match at_ with None => (a, 1%nat) | Some d => (up_e_dicts (fun ds => ds ++ [d]) a, List.length (e_dicts a)) end) in A.
  set (eb := match at_ with None => (b, 1%nat) | Some d => (up_e_dicts (fun ds => ds ++ [d]) b, List.length (e_dicts b)) end) in B.
  assert (T : Twin (fst ea) (fst eb)).
  { eapply twin_fx; [exact H| |]; unfold ea, eb; destruct at_; cbn [fst]; auto. }
  destruct ea as [ea da], eb as [eb db]; cbn [fst] in T.
  injection A as <-; injection B as <-. rewrite (twin_len_links _ _ T).
  unfold Twin. rewrite !sk_up_loc, !sk_app_link, !sk_up_loc, !sk_app_link by reflexivity. now rewrite T.
Qed.

Lemma twin_add_location S o n r x y lt mc cap pop f c at_ a g b h a' g' b' h' : Twin a b ->
  add_location S o n r x y lt mc cap pop f c at_ a g = Ok (a', g') ->
  add_location S o n r x y lt mc cap pop f c at_ b h = Ok (b', h') -> Twin a' b'.
Proof.
  intros H A B. 
  assert (W : forall e g e' g', add_location S o n r x y lt mc cap pop f c at_ e g = Ok (e', g') ->
    exists l, lk l = lk (up_l_name (fun _ => n) (up_l_country (fun _ => c) (up_l_links (fun _ => []) (up_l_closed_links (fun _ => []) l))))
      /\ sk e' = up_e_locationNames (fun ns => ns ++ [n]) (up_e_locations (fun ls => ls ++ [lk l]) (sk e))).
  { clear. intros e g e' g' H. unfold add_location in H.
    set (ea := match at_ with None => (e, 0%nat) | Some d => (up_e_dicts (fun ds => ds ++ [d]) e, List.length (e_dicts e)) end) in H.
    assert (T : Fx e (fst ea)) by (unfold ea; destruct at_; cbn [fst]; auto).
    destruct ea as [ea da]; cbn [fst] in T. rstep H. rstep H. cbv zeta in H. rstep H. destruct v1 as [e1 g1]. rstep H.
    injection H as <- <-. exists v0.
    pose proof (new_location_fresh _ _ _ _ _ _ _ _ _ _ _ _ _ _ E0) as Fr.
    pose proof (new_location_new _ _ _ _ _ _ _ _ _ _ _ _ _ _ E0) as Nw.
    split.
    { destruct Fr as (_ & _ & _ & _ & F1 & _ & F2 & _). destruct Nw as (Nw & _). unfold lstruct in Nw.
      injection Nw as _ N1 N2 _. unfold lk. cbn. now rewrite F1, F2, N1, N2. }
    apply sc_updateLocationScore in E1 as [E1 _]. apply fx_sc in E1 as [E1 _].
    apply fx_refresh in E2 as [E2 _]. rewrite E2.
    destruct T as [T _].
    transitivity (up_e_locationNames (fun ns => ns ++ [n]) (sk e1)); [reflexivity|]. rewrite E1.
    rewrite <- T. unfold sk, up_e_locationNames, up_e_locations. cbn. now rewrite map_app. }
  destruct (W _ _ _ _ A) as (l & L1 & L2). destruct (W _ _ _ _ B) as (m & M1 & M2).
  unfold Twin. rewrite L2, M2, L1, M1, H. reflexivity.
Qed.
