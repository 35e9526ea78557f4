(** * ClosureProps: the statements about closures, collected *)

From Coq Require Import Lia Permutation.
From Verif Require Import Base State Moving Crawling Flee DataTable Spawning InputGeography Api SpecAgents SpecHistory SpecRoutes SpecClosures
  Lemmas Inv InvMoves InvStruct Closures ClosureLoops ClosureEnd ClosurePlaces OffRoad.

Lemma close_exact o e g i li j lj co e' found : reachable o e g -> distinct_names e ->
  nth_error (e_locations e) i = Some li -> nth_error (e_locations e) j = Some lj ->
  remove_link (l_name li) (l_name lj) false co e = Ok (e', found) ->
  same_but_links e e' /\
  opens e' i = filter (not (to_place j)) (opens e i) /\
  closeds e' i = closeds e i ++ (if co then filter (to_place j) (opens e i) else []) /\
  (forall p, p <> i -> opens e' p = opens e p /\ closeds e' p = closeds e p) /\
  found = existsb (to_place j) (opens e i).
Proof.
  intros R D Hi Hj H. pose proof (reachable_inv _ _ _ R) as I.
  destruct (remove_spec _ _ _ _ _ _ (i_struct _ I) H) as [[A B C E] F]. rewrite (convert_own _ _ _ D Hi) in *.
  assert (X : forall k, In k (opens e i) -> to_object e (l_name lj) k = to_place j k).
  { intros k Hk. apply object_place; auto. eapply opens_end; eauto using i_struct. }
  rewrite (existsb_ext_in _ _ _ X) in F. rewrite (filter_ext_in' _ _ _ X) in C.
  rewrite (filter_ext_in' (not (to_object e (l_name lj))) (not (to_place j))) in B by (intros k Hk; unfold not; now rewrite X).
  auto.
Qed.

Lemma close_ok o e g s t tw co : reachable o e g -> e_locations e <> [] ->
  exists e' found, remove_link s t tw co e = Ok (e', found).
Proof. intros R N. apply reachable_inv in R. destruct tw; apply remove_ok; auto using i_struct. Qed.

Lemma close_objects o e g s t co e' found : reachable o e g -> remove_link s t false co e = Ok (e', found) ->
  let x := convert_name e s in
  same_but_links e e' /\
  opens e' x = filter (not (to_object e t)) (opens e x) /\
  closeds e' x = closeds e x ++ (if co then filter (to_object e t) (opens e x) else []) /\
  (forall p, p <> x -> opens e' p = opens e p /\ closeds e' p = closeds e p) /\
  found = existsb (to_object e t) (opens e x).
Proof.
  intros R H x. pose proof (reachable_inv _ _ _ R) as I. destruct (remove_spec _ _ _ _ _ _ (i_struct _ I) H) as [[A B C E] F]. auto.
Qed.

Lemma close_twoway s t co e : remove_link s t true co e = remove_link t s false co e.
Proof. reflexivity. Qed.
Lemma reopen_twoway s t e : reopen_link s t true e = reopen_link t s false e.
Proof. reflexivity. Qed.

Lemma never_entered o e g s t co e1 found i ki k h e2 g2 ai a2 : reachable o e g -> rng_ok g ->
  remove_link s t false co e = Ok (e1, found) -> convert_name e s = i -> open_link e i ki k -> to_object e t k = true ->
  run o h e1 g = Ok (e2, g2) -> nth_error (e_agents e2) ai = Some a2 -> a_location a2 = PLink ki ->
  off_road e1 ki /\
  exists a1, nth_error (e_agents e1) ai = Some a1 /\ a_location a1 = PLink ki /\ a_places_travelled a1 = a_places_travelled a2.
Proof.
  intros R G H X (l & Hl & Hin & K) T Hr Ha L. pose proof (reachable_inv _ _ _ R) as I.
  assert (O : off_road e1 ki) by (eapply remove_off; eauto). split; [assumption|].
  eapply run_off; [|exact G|exact Hr|exact O|exact Ha|exact L]. eapply inv_remove_1way; eauto.
Qed.

(** ** Closing and reopening *)

Definition restored (e e2 : eco) : Prop :=
  same_but_links e e2 /\ forall p, Permutation (opens e2 p) (opens e p) /\ Permutation (closeds e2 p) (closeds e p).

Lemma link_restored o e g s t tw e1 e2 b1 b2 : reachable o e g ->
  close_link s t tw e = Ok (e1, b1) -> reopen_link s t tw e1 = Ok (e2, b2) ->
  (forall k, In k (closeds e (convert_name e (if tw then t else s))) -> to_object e (if tw then s else t) k = false) ->
  restored e e2 /\ b2 = b1.
Proof.
  intros R H1 H2 N. pose proof (reachable_inv _ _ _ R) as I.
  assert (X : exists s t, act MClose s t e = Ok (e1, b1) /\ act MReopen s t e1 = Ok (e2, b2) /\
    forall k, In k (closeds e (convert_name e s)) -> to_object e t k = false).
  { destruct tw; [exists t, s|exists s, t]; auto. }
  clear H1 H2 N. destruct X as (s1 & t1 & H1 & H2 & N). pose proof (act_inv _ _ _ _ _ _ I H1) as I1.
  destruct (act_spec _ _ _ _ _ _ I H1) as (M1 & B1 & T1). destruct (act_spec _ _ _ _ _ _ I1 H2) as (M2 & B2 & _).
  pose proof (mv_rest _ _ _ _ _ M1) as Sb. rewrite (sbl_convert _ _ _ Sb) in M2, B2.
  assert (F : forall k, to_object e1 t1 k = to_object e t1 k) by (intro; now apply sbl_object).
  split.
  - unfold restored. apply (restore e e1 e2 _ _ (moved_all _ _ _ _ _ M1) (moved_all _ _ _ _ _ M2)).
    + intros i k Hk. rewrite F. destruct (Nat.eqb_spec i (convert_name e s1)) as [->|]; [|reflexivity]. cbn. now apply N.
    + intros i k Hk. now rewrite F.
  - rewrite B1, B2. rewrite (existsb_ext_in _ (to_object e t1)) by (intros; apply F). cbn [froms tos] in *. rewrite T1, existsb_app.
    assert (existsb (to_object e t1) (closeds e (convert_name e s1)) = false) as ->.
    { destruct (existsb (to_object e t1) (closeds e (convert_name e s1))) eqn:E; [|reflexivity]. apply existsb_exists in E as (k & Hk & E).
      rewrite N in E; [discriminate|assumption]. }
    cbn [orb]. generalize (opens e (convert_name e s1)). intro L. induction L as [|a L IH]; [reflexivity|].
    cbn. destruct (to_object e t1 a) eqn:E; cbn; [now rewrite E|exact IH].
Qed.

Lemma border_restored o e g s d tw f1 f2 e1 e2 : reachable o e g -> distinct_names e ->
  close_border f1 s d tw e = Ok e1 -> reopen_border f2 s d tw e1 = Ok e2 ->
  (forall i k, In k (closeds e i) -> crosses e s d tw i k = false) -> restored e e2.
Proof.
  intros R D H1 H2 N. pose proof (reachable_inv _ _ _ R) as I.
  destruct (border_spec _ _ _ _ _ _ _ I D H1) as [I1 M1]. pose proof (am_rest _ _ _ _ M1) as Sb.
  destruct (border_spec _ _ _ _ _ _ _ I1 (sbl_distinct _ _ Sb D) H2) as [I2 M2].
  assert (F : forall i k, crosses e1 s d tw i k = crosses e s d tw i k).
  { intros i k. unfold crosses. now rewrite !(border1_ext _ _ _ _ Sb). }
  unfold restored. apply (restore e e1 e2 _ _ M1 M2).
  - intros i k Hk. rewrite F. now apply N.
  - intros i k Hk. now rewrite F.
Qed.

Lemma place_restored o e g i l f1 f2 e1 e2 b1 b2 : reachable o e g -> distinct_names e ->
  nth_error (e_locations e) i = Some l -> no_loop e i ->
  (forall p k, In k (closeds e p) -> p <> i /\ to_place i k = false) ->
  close_location f1 (lname l) true e = Ok (e1, b1) -> reopen_location f2 (lname l) true e1 = Ok (e2, b2) ->
  (List.length (opens e i) <= f1)%nat -> (List.length (opens e i) <= f2)%nat ->
  restored e e2.
Proof.
  intros R D Hl NL NC H1 H2 F1 F2. pose proof (reachable_inv _ _ _ R) as I.
  assert (Ci : closeds e i = []). { destruct (closeds e i) as [|k L] eqn:E; [reflexivity|]. destruct (NC i k) as [X _]; [rewrite E; now left|congruence]. }
  assert (L1 : List.length (ids MClose l) = List.length (opens e i)).
  { change (opens e i) with (froms MClose e i). rewrite (froms_ids MClose e i l Hl), roads_length; [reflexivity|eapply valid_ids; eauto]. }
  destruct (both_loop MClose i (List.length (ids MClose l)) e l I D Hl NL (le_n _)) as (e1' & HF & I1 & M1).
  pose proof (am_rest _ _ _ _ M1) as Sb.
  assert (E1 : e1' = e1).
  { pose proof (place_one f1 MClose DBoth (lname l) e i l e1' I D Hl eq_refl I1 Sb (HF f1 ltac:(lia))) as Q.
    unfold close_location in H1. rewrite Q in H1. now injection H1. }
  subst e1'. destruct (sbl_nth _ _ _ _ Sb Hl) as (l1 & Hl1 & _). pose proof (name_kept _ _ _ _ _ Sb Hl Hl1) as Nm.
  assert (P1 : Permutation (closeds e1 i) (opens e i)).
  { pose proof (am_tos _ _ _ _ M1 i) as T. cbn [tos froms] in T. rewrite Ci, filter_all in T; [exact T|].
    intros k _. unfold touched. now rewrite Nat.eqb_refl. }
  assert (L2 : List.length (ids MReopen l1) = List.length (opens e i)).
  { rewrite <- (Permutation_length P1). change (closeds e1 i) with (froms MReopen e1 i). rewrite (froms_ids MReopen e1 i l1 Hl1), roads_length; [reflexivity|eapply valid_ids; eauto]. }
  assert (D1 := sbl_distinct _ _ Sb D).
  destruct (both_loop MReopen i (List.length (ids MReopen l1)) e1 l1 I1 D1 Hl1) as (e2' & HF2 & I2 & M2); [|lia|].
  { intros k Hk. cbn [froms] in Hk. apply NL. eapply Permutation_in; eauto. }
  assert (E2 : e2' = e2).
  { assert (Ln : lname l1 = lname l) by (unfold lname; now rewrite Nm).
    pose proof (place_one f2 MReopen DBoth (lname l1) e1 i l1 e2' I1 D1 Hl1 eq_refl I2 (am_rest _ _ _ _ M2) (HF2 f2 ltac:(lia))) as Q.
    unfold reopen_location in H2. rewrite <- Ln, Q in H2. now injection H2. }
  subst e2'. unfold restored. apply (restore e e1 e2 _ _ M1 M2).
  - intros p k Hk. destruct (NC p k Hk) as [X Y]. unfold touched. rewrite Y, Bool.andb_false_r.
    now destruct (Nat.eqb_spec p i).
  - intros p k Hk. unfold touched. cbn [froms]. now rewrite (existsb_perm _ _ _ P1).
Qed.

(** ** Borders *)

Lemma border_exact o e g s d tw fuel e' : reachable o e g -> distinct_names e -> close_border fuel s d tw e = Ok e' ->
  same_but_links e e' /\ forall i,
    opens e' i = filter (not (crosses e s d tw i)) (opens e i) /\
    Permutation (closeds e' i) (closeds e i ++ filter (crosses e s d tw i) (opens e i)).
Proof.
  intros R D H. pose proof (reachable_inv _ _ _ R) as I. destruct (border_spec _ _ _ _ _ _ _ I D H) as [_ [A B C]].
  split; [assumption|]. intro i. split; [apply B|apply C].
Qed.

Lemma border_closed o e g s d tw fuel e' i k : reachable o e g -> distinct_names e -> close_border fuel s d tw e = Ok e' ->
  In k (opens e' i) ->
  ~ (country_at e' i = s /\ country_at e' (k_endpoint k) = d) /\
  (tw = true -> ~ (country_at e' i = d /\ country_at e' (k_endpoint k) = s)).
Proof.
  intros R D H Hk. destruct (border_exact _ _ _ _ _ _ _ _ R D H) as [Sb X]. destruct (X i) as [Y _]. rewrite Y in Hk.
  apply filter_In in Hk as [_ Hk]. rewrite !(sbl_country _ _ _ Sb). unfold not, crosses, border1, to_country in Hk. split.
  - intros [<- <-]. rewrite !String.eqb_refl in Hk. discriminate.
  - intros -> [<- <-]. rewrite !String.eqb_refl in Hk. rewrite Bool.orb_true_r in Hk. discriminate.
Qed.

Lemma border_terminates o e g s d tw : reachable o e g ->
  (exists F e', forall fuel, (F <= fuel)%nat -> close_border fuel s d tw e = Ok e') /\
  (exists F e', forall fuel, (F <= fuel)%nat -> reopen_border fuel s d tw e = Ok e').
Proof. intro R. apply reachable_inv in R. split; apply border_ends; assumption. Qed.

(** ** Locations *)

Lemma place_exact o e g i l : reachable o e g -> distinct_names e -> nth_error (e_locations e) i = Some l -> no_loop e i ->
  exists e', (forall fuel, (List.length (opens e i) <= fuel)%nat -> close_location fuel (lname l) true e = Ok (e', true)) /\
    same_but_links e e' /\ opens e' i = [] /\ Permutation (closeds e' i) (closeds e i ++ opens e i) /\
    forall p, p <> i ->
      let back k := (to_place i k && existsb (to_place p) (opens e i))%bool in
      opens e' p = filter (not back) (opens e p) /\ Permutation (closeds e' p) (closeds e p ++ filter back (opens e p)).
Proof.
  intros R D Hl NL. pose proof (reachable_inv _ _ _ R) as I.
  assert (L1 : List.length (ids MClose l) = List.length (opens e i)).
  { change (opens e i) with (froms MClose e i). rewrite (froms_ids MClose e i l Hl), roads_length; [reflexivity|eapply valid_ids; eauto]. }
  destruct (both_loop MClose i (List.length (ids MClose l)) e l I D Hl NL (le_n _)) as (e' & HF & I1 & [M1 M2 M3]).
  exists e'. split.
  { intros fuel Hf. unfold close_location. eapply place_one; eauto. apply HF. lia. }
  split; [assumption|]. pose proof (M2 i) as X. pose proof (M3 i) as Y. cbn [froms tos] in X, Y.
  rewrite filter_none in X. 2:{ intros k _. unfold not, touched. now rewrite Nat.eqb_refl. }
  rewrite filter_all in Y. 2:{ intros k _. unfold touched. now rewrite Nat.eqb_refl. }
  split; [assumption|]. split; [assumption|]. intros p Np back.
  assert (F : forall k, touched MClose e i p k = back k).
  { intro k. unfold touched, back. destruct (Nat.eqb_spec p i); [contradiction|]. cbn [orb froms]. apply Bool.andb_comm. }
  pose proof (M2 p) as X'. pose proof (M3 p) as Y'. cbn [froms tos] in X', Y'.
  rewrite (filter_ext (touched MClose e i p) back F) in Y'. rewrite (filter_ext (not (touched MClose e i p)) (not back)) in X'.
  - auto.
  - intro k. unfold not. now rewrite F.
Qed.

Lemma place_isolated o e g i l fuel e' b : reachable o e g -> distinct_names e -> nth_error (e_locations e) i = Some l ->
  no_loop e i -> symmetric_at e i -> (List.length (opens e i) <= fuel)%nat -> close_location fuel (lname l) true e = Ok (e', b) ->
  b = true /\ same_but_links e e' /\ opens e' i = [] /\
  (forall p, p <> i -> opens e' p = filter (not (to_place i)) (opens e p)).
Proof.
  intros R D Hl NL Sy Hf H. destruct (place_exact _ _ _ _ _ R D Hl NL) as (e1 & H1 & Sb & O & _ & P).
  rewrite (H1 fuel Hf) in H. injection H as <- <-. split; [reflexivity|]. split; [assumption|]. split; [assumption|].
  intros p Np. destruct (P p Np) as [X _]. rewrite X. apply filter_ext_in'. intros k Hk. unfold not. f_equal.
  destruct (to_place i k) eqn:E; [|reflexivity]. cbn. apply existsb_exists. destruct (Sy p k Hk E) as (k' & A & B). eauto.
Qed.

Lemma place_in_exact o e g i l : reachable o e g -> distinct_names e -> nth_error (e_locations e) i = Some l ->
  exists e', (forall fuel, (List.length (opens e i) <= fuel)%nat -> close_location fuel (lname l) false e = Ok (e', true)) /\
    same_but_links e e' /\
    forall p, let back k := (to_place i k && existsb (to_place p) (opens e i))%bool in
      opens e' p = filter (not back) (opens e p) /\ Permutation (closeds e' p) (closeds e p ++ filter back (opens e p)).
Proof.
  intros R D Hl. pose proof (reachable_inv _ _ _ R) as I.
  assert (V : valid e (l_links l)) by (eapply inv_valid_links; eauto using i_struct).
  assert (L0 : opens e i = roads e (l_links l)) by (unfold opens; now rewrite Hl).
  assert (L1 : List.length (l_links l) = List.length (opens e i)) by (rewrite L0; symmetry; now apply roads_length).
  destruct (in_loop i (l_links l) (List.length (l_links l)) 0 e l I D Hl V ltac:(lia)) as (e' & HF & I1 & [M1 M2 M3]).
  exists e'. split.
  { intros fuel Hf. unfold close_location. eapply place_one; eauto. apply HF. lia. }
  split; [assumption|]. intros p back. rewrite skipn_O, <- L0 in M2, M3.
  assert (F : forall k, incoming (opens e i) i p k = back k) by (intro k; unfold incoming, back; apply Bool.andb_comm).
  pose proof (M2 p) as X'. pose proof (M3 p) as Y'. cbn [froms tos] in X', Y'.
  rewrite (filter_ext (incoming (opens e i) i p) back F) in Y'. rewrite (filter_ext (not (incoming (opens e i) i p)) (not back)) in X'.
  - auto.
  - intro k. unfold not. now rewrite F.
Qed.

Lemma place_unknown o e g name fuel tw : reachable o e g -> (forall l, In l (e_locations e) -> lname l <> name) ->
  close_location fuel name tw e = Ok (e, false) /\ reopen_location fuel name tw e = Ok (e, false).
Proof. intros R N. apply reachable_inv in R. split; apply place_none; assumption. Qed.

(** reopen_location(twoway=False) never comes to an end if the location has closed links. *)
Lemma reopen_in_never o e g i l fuel : reachable o e g -> distinct_names e -> nth_error (e_locations e) i = Some l -> closeds e i <> [] ->
  reopen_location fuel (lname l) false e = Err OutOfFuel.
Proof.
  intros R D Hl C. pose proof (reachable_inv _ _ _ R) as I. unfold reopen_location, change_location_1way.
  change (foldM (place_body fuel MReopen DIn (lname l)) (seq 0 (List.length (e_locationNames e))) (e, false) = Err OutOfFuel).
  rewrite (st_names _ (i_struct _ I)), map_length. pose proof (nth_error_lt _ _ _ Hl) as Li.
  replace (List.length (e_locations e)) with (i + Datatypes.S (List.length (e_locations e) - Datatypes.S i))%nat by lia.
  rewrite seq_app, foldM_app, place_skip; [|assumption|].
  2:{ intros j Hj. apply in_seq in Hj. destruct (nth_error_ex (e_locations e) j) as [lj Lj]; [lia|]. exists lj. split; [assumption|].
      intro E. assert (j = i); [|lia]. apply (D j i lj l Lj Hl). left. exact E. }
  cbn [bind seq foldM plus]. unfold place_body at 1. rewrite (st_names _ (i_struct _ I)), nth_error_map, Hl. cbn [option_map of_option bind].
  unfold lname. rewrite String.eqb_refl. unfold loc_of. rewrite Hl. cbn [of_option bind ids].
  destruct (l_closed_links l) as [|ki r] eqn:E; [exfalso; apply C; unfold closeds; rewrite Hl, E; reflexivity|]. rewrite <- E.
  rewrite (reopen_in_diverges i (l_name l) (l_closed_links l) 0 ki fuel); auto.
  - intro N. rewrite N in Hl. destruct i; discriminate.
  - eapply inv_valid_store; eauto using i_struct.
  - now rewrite E.
Qed.

(** ** Schedule *)

Lemma schedule_quiet fuel S t tw e : (forall c, In c (e_closures e) -> t <> c_start c /\ t <> c_end c) ->
  enact_border_closures fuel S t tw e = Ok e.
Proof.
  unfold enact_border_closures. generalize (e_closures e). intro L. revert e. induction L as [|c L IH]; intros e H; [reflexivity|].
  cbn [foldM]. unfold enact_one at 1. destruct (H c (or_introl eq_refl)) as [A B].
  rewrite (proj2 (Z.eqb_neq _ _) A). cbn [bind]. rewrite (proj2 (Z.eqb_neq _ _) B). cbn [bind]. apply IH. intros; apply H; now right.
Qed.

Lemma foldM_filter {S A} (f : S -> A -> res S) (p : A -> bool) l : (forall s a, In a l -> p a = false -> f s a = Ok s) -> forall s,
  foldM f l s = foldM f (filter p l) s.
Proof.
  induction l as [|a l IH]; intros H s; [reflexivity|]. cbn [foldM filter]. destruct (p a) eqn:E.
  - cbn [foldM]. destruct (f s a) as [s'|]; [|reflexivity]. cbn [bind]. apply IH. intros; apply H; auto. now right.
  - rewrite H by (auto; now left). cbn [bind]. apply IH. intros; apply H; auto. now right.
Qed.

(** Only the closures that start or end now matter. *)
Lemma schedule_due fuel S t tw e :
  enact_border_closures fuel S t tw e =
  foldM (enact_one fuel S t tw) (filter (fun c => ((t =? c_start c) || (t =? c_end c))%Z%bool) (e_closures e)) e.
Proof.
  unfold enact_border_closures. apply foldM_filter. intros s c _ H. apply Bool.orb_false_iff in H as [A B].
  unfold enact_one. rewrite A. cbn [bind]. now rewrite B.
Qed.

(** One country closure: the border is closed on its first and reopened on its last day. *)
Lemma schedule_country fuel S t tw e c : 
  filter (fun c => ((t =? c_start c) || (t =? c_end c))%Z%bool) (e_closures e) = [c] -> c_kind c = "country"%string -> c_start c <> c_end c ->
  enact_border_closures fuel S t tw e =
    if (t =? c_start c)%Z then close_border fuel (sval (c_source c)) (sval (c_dest c)) tw e
    else reopen_border fuel (sval (c_source c)) (sval (c_dest c)) tw e.
Proof.
  intros H K N. rewrite schedule_due, H. cbn [foldM]. unfold enact_one, enact_close, enact_open. rewrite K. cbn [String.eqb Ascii.eqb Bool.eqb].
  assert (D : ((t =? c_start c) || (t =? c_end c))%Z%bool = true).
  { assert (In c (filter (fun c => ((t =? c_start c) || (t =? c_end c))%Z%bool) (e_closures e))) by (rewrite H; now left).
    now apply filter_In in H0. }
  destruct (Z.eqb_spec t (c_start c)) as [E|E].
  - destruct (Z.eqb_spec t (c_end c)) as [E2|E2]; [congruence|]. destruct (close_border _ _ _ _ _); reflexivity.
  - cbn [orb] in D. rewrite D. cbn [bind]. destruct (reopen_border _ _ _ _ _); reflexivity.
Qed.

(** close_location never comes to an end if the location is linked to itself. *)
Lemma close_loop_never o e g i l fuel : reachable o e g -> distinct_names e -> nth_error (e_locations e) i = Some l -> ~ no_loop e i ->
  close_location fuel (lname l) true e = Err OutOfFuel.
Proof.
  intros R D Hl C. pose proof (reachable_inv _ _ _ R) as I. unfold close_location, change_location_1way.
  change (foldM (place_body fuel MClose DBoth (lname l)) (seq 0 (List.length (e_locationNames e))) (e, false) = Err OutOfFuel).
  rewrite (st_names _ (i_struct _ I)), map_length. pose proof (nth_error_lt _ _ _ Hl) as Li.
  replace (List.length (e_locations e)) with (i + Datatypes.S (List.length (e_locations e) - Datatypes.S i))%nat by lia.
  rewrite seq_app, foldM_app, place_skip; [|assumption|].
  2:{ intros j Hj. apply in_seq in Hj. destruct (nth_error_ex (e_locations e) j) as [lj Lj]; [lia|]. exists lj. split; [assumption|].
      intro E. assert (j = i); [|lia]. apply (D j i lj l Lj Hl). left. exact E. }
  cbn [bind seq foldM plus]. unfold place_body at 1. rewrite (st_names _ (i_struct _ I)), nth_error_map, Hl. cbn [option_map of_option bind].
  unfold lname. rewrite String.eqb_refl. unfold loc_of. rewrite Hl. cbn [of_option bind ids].
  assert (X : exists k, In k (opens e i) /\ to_place i k = true).
  { destruct (existsb (to_place i) (opens e i)) eqn:E; [apply existsb_exists in E; exact E|]. destruct C. intros k Hk.
    destruct (to_place i k) eqn:T; [|reflexivity]. assert (existsb (to_place i) (opens e i) = true) by (apply existsb_exists; eauto). congruence. }
  destruct X as (k & Hk & T). rewrite (loop_diverges i fuel e l k); auto.
Qed.

Lemma traffic_survives o e g s t tw e1 e2 b1 b2 : reachable o e g ->
  close_link s t tw e = Ok (e1, b1) -> reopen_link s t tw e1 = Ok (e2, b2) ->
  (forall k, In k (closeds e (convert_name e (if tw then t else s))) -> to_object e (if tw then s else t) k = false) ->
  forall p, Permutation
    (map (fun k => (k_startpoint k, k_endpoint k, k_distance k, k_cumNumAgents k)) (opens e2 p))
    (map (fun k => (k_startpoint k, k_endpoint k, k_distance k, k_cumNumAgents k)) (opens e p)).
Proof.
  intros R H1 H2 N p. destruct (link_restored _ _ _ _ _ _ _ _ _ _ R H1 H2 N) as [[_ X] _]. apply Permutation_map. now destruct (X p).
Qed.
