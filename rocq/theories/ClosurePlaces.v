(** * ClosurePlaces: closing and reopening locations; closing and reopening again *)

From Coq Require Import Lia Permutation.
From Verif Require Import Base State Moving Crawling Flee SpecAgents SpecRoutes SpecClosures Lemmas Inv InvMoves InvStruct
  Closures ClosureLoops ClosureEnd.

(** ** Closing and reopening again *)

Lemma existsb_perm {A} (f : A -> bool) l l' : Permutation l l' -> existsb f l = existsb f l'.
Proof.
  induction 1; cbn; auto; [now rewrite IHPermutation| |congruence].
  now destruct (f x), (f y).
Qed.

Lemma restore e e1 e2 f g : AllMoved MClose e e1 f -> AllMoved MReopen e1 e2 g ->
  (forall i k, In k (closeds e i) -> g i k = false) ->
  (forall i k, In k (opens e i) -> f i k = true -> g i k = true) ->
  same_but_links e e2 /\ forall i, Permutation (opens e2 i) (opens e i) /\ Permutation (closeds e2 i) (closeds e i).
Proof.
  intros [A1 A2 A3] [B1 B2 B3] Hc Ho. split; [eapply sbl_trans; eauto|]. intro i.
  specialize (A2 i). specialize (A3 i). specialize (B2 i). specialize (B3 i). cbn [froms tos] in *. split.
  - rewrite B3, A2. rewrite (filter_split (f i) (opens e i)) at 2. apply Permutation_app_head.
    rewrite (perm_filter _ _ _ A3), filter_app. rewrite (filter_none (g i) (closeds e i)) by auto. cbn [app].
    rewrite filter_all; [reflexivity|]. intros k Hk. apply filter_In in Hk as [H1 H2]. auto.
  - rewrite B2, (perm_filter _ _ _ A3), filter_app. rewrite (filter_all (not (g i)) (closeds e i)) by (intros k Hk; unfold not; now rewrite Hc).
    rewrite filter_none; [now rewrite app_nil_r|]. intros k Hk. apply filter_In in Hk as [H1 H2]. unfold not. now rewrite (Ho i k H1 H2).
Qed.

(** ** Both directions *)

(** The road [k] starting in location [p] is touched by a change of location [i]:
    it starts there, or it leads back from a neighbour. *)
Definition touched (m : chmode) (e : eco) (i p : nat) (k : link) : bool :=
  (Nat.eqb p i || (existsb (to_place p) (froms m e i) && to_place i k))%bool.

Definition both_body fuel m i ni (ls : list nat) (j : nat) (e : eco) (ep : location) : res eco :=
  '(e1, _) <- act m (l_name ep) ni e ;;
  '(e2, done) <- act m ni (l_name ep) e1 ;;
  if done : bool then l <- loc_of e2 i ;; change_location_loop fuel m DBoth i ni (ids m l) j e2
  else match m with
       | MClose => change_location_loop fuel m DBoth i ni ls j e2
       | MReopen => change_location_loop fuel m DBoth i ni ls (Datatypes.S j) e2
       end.

Lemma both_unfold fuel m i ni ls j e ki : nth_error ls j = Some ki ->
  change_location_loop (Datatypes.S fuel) m DBoth i ni ls j e =
  (k <- link_of e ki ;; ep <- endpoint_of e k ;; both_body fuel m i ni ls j e ep).
Proof.
  intro H. cbn [change_location_loop]. rewrite H. destruct (link_of e ki) as [k|]; [|reflexivity]. cbn [bind].
  destruct (endpoint_of e k) as [ep|]; [|reflexivity]. cbn [bind]. unfold both_body. destruct m; cbn [act ids].
  - destruct (close_link (l_name ep) ni false e) as [[e1 b]|]; [|reflexivity]. cbn [bind].
    destruct (close_link ni (l_name ep) false e1) as [[e2 b2]|]; [|reflexivity]. cbn [bind]. reflexivity.
  - destruct (reopen_link (l_name ep) ni false e) as [[e1 b]|]; [|reflexivity]. cbn [bind].
    destruct (reopen_link ni (l_name ep) false e1) as [[e2 b2]|]; [|reflexivity]. cbn [bind]. reflexivity.
Qed.

Lemma name_kept e e1 i l l1 : same_but_links e e1 -> nth_error (e_locations e) i = Some l -> nth_error (e_locations e1) i = Some l1 ->
  l_name l1 = l_name l.
Proof.
  intros Sb H H1. pose proof (sbl_view l_name e e1 i (fun l => eq_refl) Sb) as V. rewrite H1, H in V. cbn in V. congruence.
Qed.

Lemma both_loop m i : forall n e l, Inv e -> distinct_names e -> nth_error (e_locations e) i = Some l ->
  (forall k, In k (froms m e i) -> to_place i k = false) -> (List.length (ids m l) <= n)%nat ->
  exists e', (forall fuel, (n <= fuel)%nat -> change_location_loop fuel m DBoth i (l_name l) (ids m l) 0 e = Ok e') /\
    Inv e' /\ AllMoved m e e' (touched m e i).
Proof.
  induction n as [n IH] using lt_wf_ind. intros e l I D Hl Hs Hn.
  destruct (ids m l) as [|ki r] eqn:El.
  - exists e. split; [intros fuel _; destruct fuel; reflexivity|]. split; [assumption|].
    assert (F : froms m e i = []) by (rewrite (froms_ids _ _ _ _ Hl), El; reflexivity).
    apply all_none. intros p k Hk. unfold touched. rewrite F. cbn. destruct (Nat.eqb_spec p i) as [->|]; [|reflexivity].
    rewrite F in Hk. destruct Hk.
  - destruct n as [|n]; [cbn in Hn; lia|].
    assert (Hin : In ki (ids m l)) by (rewrite El; now left).
    destruct (froms_id m e i l ki I Hl Hin) as (k & K & Kin).
    destruct (endpoint_ex e ki (i_struct _ I)) as (k' & ep & K' & Ep); [now apply nth_error_lt in K|].
    assert (k' = k) as -> by congruence. clear K'.
    set (p := k_endpoint k) in *.
    assert (Np : p <> i). { specialize (Hs _ Kin). unfold to_place in Hs. rewrite norm_endpoint in Hs. now apply Nat.eqb_neq in Hs. }
    assert (Ne : e_locations e <> []) by (intro N; rewrite N in Hl; destruct i; discriminate).
    destruct (act_ok m (l_name ep) (l_name l) e I Ne) as (e1 & b1 & A1).
    pose proof (act_inv _ _ _ _ _ _ I A1) as I1.
    destruct (act_place _ _ _ _ _ _ _ _ I D Ep Hl A1) as (M1 & _ & _). pose proof (mv_rest _ _ _ _ _ M1) as S1.
    pose proof (sbl_distinct _ _ S1 D) as D1.
    destruct (sbl_nth _ _ _ _ S1 Hl) as (l1 & Hl1 & _). destruct (sbl_nth _ _ _ _ S1 Ep) as (ep1 & Ep1 & _).
    pose proof (name_kept _ _ _ _ _ S1 Hl Hl1) as Nl1. pose proof (name_kept _ _ _ _ _ S1 Ep Ep1) as Ne1.
    assert (Ne' : e_locations e1 <> []) by (intro N; rewrite N in Hl1; destruct i; discriminate).
    destruct (act_ok m (l_name l1) (l_name ep1) e1 I1 Ne') as (e2 & b2 & A2).
    pose proof (act_inv _ _ _ _ _ _ I1 A2) as I2.
    destruct (act_place _ _ _ _ _ _ _ _ I1 D1 Hl1 Ep1 A2) as (M2 & Hb2 & _). pose proof (mv_rest _ _ _ _ _ M2) as S2.
    assert (F1 : froms m e1 i = froms m e i) by (now destruct (mv_others _ _ _ _ _ M1 i (not_eq_sym Np))).
    assert (b2 = true) as ->.
    { rewrite Hb2, F1. apply existsb_exists. exists (norm k). split; [assumption|]. unfold to_place. apply Nat.eqb_refl. }
    pose proof (sbl_distinct _ _ S2 D1) as D2. destruct (sbl_nth _ _ _ _ S2 Hl1) as (l2 & Hl2 & _).
    pose proof (name_kept _ _ _ _ _ S2 Hl1 Hl2) as Nl2.
    assert (F2 : froms m e2 i = filter (not (to_place p)) (froms m e i)) by (now rewrite (mv_froms _ _ _ _ _ M2), F1).
    assert (L2 : (List.length (ids m l2) < List.length (ids m l))%nat).
    { rewrite <- (roads_length e2 (ids m l2)) by (eapply valid_ids; eauto). rewrite <- (froms_ids m e2 i l2 Hl2), F2.
      rewrite <- (roads_length e (ids m l)) by (eapply valid_ids; eauto). rewrite <- (froms_ids m e i l Hl).
      apply filter_lt. rewrite <- F1. congruence. }
    rewrite El in L2. cbn [List.length] in L2, Hn.
    destruct (IH n ltac:(lia) e2 l2 I2 D2 Hl2) as (e' & HF & I' & M').
    { intros q Hq. rewrite F2 in Hq. apply filter_In in Hq as [Hq _]. auto. }
    { lia. }
    exists e'. split.
    { intros [|fuel] Hf; [lia|]. rewrite (both_unfold _ _ _ _ _ _ _ ki) by reflexivity.
      unfold link_of, endpoint_of, loc_of. rewrite K. cbn [of_option bind]. fold p. rewrite Ep. cbn [of_option bind].
      unfold both_body. rewrite A1. cbn [bind]. rewrite <- Nl1, <- Ne1, A2. cbn [bind]. unfold loc_of. rewrite Hl2. cbn [of_option bind].
      rewrite <- Nl2. apply HF. lia. }
    split; [assumption|].
    eapply all_ext; [|eapply all_join; [eapply all_join; [apply moved_all; exact M1|apply moved_all; exact M2]|exact M']].
    intros x q Hq. cbn. unfold touched. rewrite F2.
    destruct (Nat.eqb_spec x i) as [->|Nx]; cbn [orb andb].
    + destruct (Nat.eqb i p && to_place i q)%bool, (to_place p q); reflexivity.
    + rewrite Bool.orb_false_r. destruct (to_place i q) eqn:Eq; [|now rewrite !Bool.andb_false_r].
      rewrite !Bool.andb_true_r. destruct (Nat.eqb_spec x p) as [->|Nxp].
      * cbn. symmetry. apply existsb_exists. exists (norm k). split; [assumption|]. apply Nat.eqb_refl.
      * cbn [orb]. clear - Nxp. induction (froms m e i) as [|a L IH]; [reflexivity|]. cbn. unfold not at 1, to_place at 2.
        destruct (Nat.eqb_spec (k_endpoint a) p) as [E|]; cbn [negb].
        -- rewrite IH. unfold to_place at 2. rewrite E. destruct (Nat.eqb_spec p x); [congruence|reflexivity].
        -- cbn. now rewrite IH.
Qed.

(** ** Incoming direction only *)

Lemma act_roads m s t e e' b L : Inv e -> valid e L -> act m s t e = Ok (e', b) -> roads e' L = roads e L.
Proof.
  intros I V H. apply roads_ext. intros ki Hk. specialize (V ki Hk). destruct m; cbn [act] in H.
  - unfold close_link, remove_link, remove_link_1way, loc_of in H. rstep H. apply of_option_ok in E. rstep H.
    destruct v0 as [[e1 n1] r1]. injection H as <- _.
    destruct (remove_fold_spec _ _ _ _ _ _ _ _ _ _ _ E (inv_valid_links _ _ _ (i_struct _ I) E) E0) as (_ & _ & Kp & _). apply Kp, V.
  - unfold reopen_link, reopen_link_1way, loc_of in H. rstep H. apply of_option_ok in E. rstep H.
    destruct v0 as [[e1 n1] r1]. injection H as <- _.
    destruct (reopen_fold_spec _ _ _ _ _ _ _ _ _ _ E (inv_valid_store _ _ _ (i_struct _ I) E) E0) as (_ & _ & Kp & _). apply Kp.
Qed.

(** The road leads from a neighbour back to [i]. *)
Definition incoming (L : list link) (i p : nat) (k : link) : bool := (existsb (to_place p) L && to_place i k)%bool.

Lemma skipn_nth {A} (l : list A) j a : nth_error l j = Some a -> skipn j l = a :: skipn (Datatypes.S j) l.
Proof. revert j. induction l as [|b l IH]; intros [|j] H; try discriminate; [injection H as ->; reflexivity|]. cbn in *. now apply IH. Qed.

Lemma in_loop i ls : forall d j e l, Inv e -> distinct_names e -> nth_error (e_locations e) i = Some l -> valid e ls ->
  (List.length ls - j <= d)%nat ->
  exists e', (forall fuel, (d <= fuel)%nat -> change_location_loop fuel MClose DIn i (l_name l) ls j e = Ok e') /\
    Inv e' /\ AllMoved MClose e e' (incoming (roads e (skipn j ls)) i).
Proof.
  induction d as [|d IH]; intros j e l I D Hl V Hd.
  - assert (N : nth_error ls j = None) by (apply nth_error_None; lia). exists e. split.
    { intros [|fuel] _; cbn; now rewrite N. }
    split; [assumption|]. apply all_none. intros p k _. rewrite skipn_all2 by lia. reflexivity.
  - destruct (nth_error ls j) as [ki|] eqn:Ej.
    2:{ pose proof Ej as N. apply nth_error_None in N. exists e. split; [intros [|fuel] _; cbn; now rewrite Ej|].
        split; [assumption|]. apply all_none. intros p k _. rewrite skipn_all2 by lia. reflexivity. }
    destruct (endpoint_ex e ki (i_struct _ I)) as (k & ep & K & Ep); [apply V; eapply nth_error_In; eauto|].
    assert (Ne : e_locations e <> []) by (intro N; rewrite N in Hl; destruct i; discriminate).
    destruct (act_ok MClose (l_name ep) (l_name l) e I Ne) as (e1 & b1 & A1).
    pose proof (act_inv _ _ _ _ _ _ I A1) as I1.
    destruct (act_place _ _ _ _ _ _ _ _ I D Ep Hl A1) as (M1 & _ & _). pose proof (mv_rest _ _ _ _ _ M1) as S1.
    pose proof (sbl_distinct _ _ S1 D) as D1. destruct (sbl_nth _ _ _ _ S1 Hl) as (l1 & Hl1 & _).
    pose proof (name_kept _ _ _ _ _ S1 Hl Hl1) as Nl1.
    destruct (IH (Datatypes.S j) e1 l1 I1 D1 Hl1) as (e' & HF & I' & M').
    { intros kj Hj. specialize (V kj Hj). pose proof (act_links _ _ _ _ _ _ A1). lia. }
    { pose proof (nth_error_lt _ _ _ Ej). lia. }
    exists e'. split.
    { intros [|fuel] Hf; [lia|]. cbn [change_location_loop]. rewrite Ej. unfold link_of, endpoint_of, loc_of. rewrite K. cbn [of_option bind].
      rewrite Ep. cbn [of_option bind]. cbn [act] in A1. rewrite A1. cbn [bind]. rewrite <- Nl1. apply HF. lia. }
    split; [assumption|].
    assert (Vs : valid e (skipn (Datatypes.S j) ls)). { intros kj Hj. apply V. rewrite <- (firstn_skipn (Datatypes.S j) ls). apply in_or_app. now right. }
    rewrite (act_roads _ _ _ _ _ _ _ I Vs A1) in M'.
    eapply all_ext; [|eapply all_join; [apply moved_all; exact M1|exact M']]. intros x q _. cbn beta.
    rewrite (skipn_nth _ _ _ Ej). unfold incoming. rewrite (roads_cons _ _ _ _ K). cbn [existsb].
    assert (to_place x (norm k) = Nat.eqb (k_endpoint k) x) as -> by reflexivity.
    rewrite (Nat.eqb_sym x). destruct (Nat.eqb (k_endpoint k) x), (existsb (to_place x) (roads e (skipn (Datatypes.S j) ls))), (to_place i q); reflexivity.
Qed.

(** ** A named location *)

Definition place_body fuel m dir name (st : eco * bool) (i : nat) : res (eco * bool) :=
  let '(e1, changed) := st in
  ni <- of_option IndexError (nth_error (e_locationNames e1) i) ;;
  if String.eqb (sval ni) name then
    l <- loc_of e1 i ;; e2 <- change_location_loop fuel m dir i ni (ids m l) 0 e1 ;; Ok (e2, true)
  else Ok (e1, changed).

Lemma place_skip fuel m dir name js : forall e b, Inv e ->
  (forall j, In j js -> exists l, nth_error (e_locations e) j = Some l /\ lname l <> name) ->
  foldM (place_body fuel m dir name) js (e, b) = Ok (e, b).
Proof.
  induction js as [|j js IH]; intros e b I H; [reflexivity|]. cbn [foldM]. unfold place_body at 1.
  destruct (H j (or_introl eq_refl)) as (l & Hl & N). rewrite (st_names _ (i_struct _ I)), nth_error_map, Hl. cbn [option_map of_option bind].
  destruct (String.eqb_spec (sval (l_name l)) name) as [E|]; [now destruct N|]. cbn [bind]. apply IH; [assumption|].
  intros; apply H; now right.
Qed.

Lemma place_one fuel m dir name e i l e' : Inv e -> distinct_names e -> nth_error (e_locations e) i = Some l -> lname l = name ->
  Inv e' -> same_but_links e e' ->
  change_location_loop fuel m dir i (l_name l) (ids m l) 0 e = Ok e' ->
  change_location_1way fuel name m dir e = Ok (e', true).
Proof.
  intros I D Hl Hn I' Sb H. unfold change_location_1way. change (foldM (place_body fuel m dir name) (seq 0 (List.length (e_locationNames e))) (e, false) = Ok (e', true)).
  rewrite (st_names _ (i_struct _ I)), map_length. pose proof (nth_error_lt _ _ _ Hl) as Li.
  assert (seq 0 (List.length (e_locations e)) = seq 0 i ++ i :: seq (Datatypes.S i) (List.length (e_locations e) - Datatypes.S i)) as ->.
  { replace (List.length (e_locations e)) with (i + Datatypes.S (List.length (e_locations e) - Datatypes.S i))%nat at 1 by lia.
    rewrite seq_app. reflexivity. }
  assert (Oth : forall j lj, j <> i -> nth_error (e_locations e) j = Some lj -> lname lj <> name).
  { intros j lj Nj Hj E. apply Nj. apply (D j i lj l Hj Hl). left. unfold lname in *. congruence. }
  rewrite foldM_app, place_skip; [|assumption|].
  2:{ intros j Hj. apply in_seq in Hj. destruct (nth_error_ex (e_locations e) j) as [lj Lj]; [lia|]. exists lj. split; [assumption|].
      eapply Oth; [|exact Lj]. lia. }
  cbn [bind foldM]. unfold place_body at 1. rewrite (st_names _ (i_struct _ I)), nth_error_map, Hl. cbn [option_map of_option bind].
  unfold lname in Hn. rewrite Hn, String.eqb_refl. unfold loc_of. rewrite Hl. cbn [of_option bind]. rewrite H. cbn [bind].
  apply place_skip; [assumption|]. intros j Hj. apply in_seq in Hj.
  destruct (nth_error_ex (e_locations e) j) as [lj Lj]; [lia|].
  destruct (sbl_nth _ _ _ _ Sb Lj) as (lj' & Lj' & _). exists lj'. split; [assumption|].
  unfold lname. rewrite (name_kept _ _ _ _ _ Sb Lj Lj'). eapply Oth; [|exact Lj]. lia.
Qed.

Lemma place_none fuel m dir name e : Inv e -> (forall l, In l (e_locations e) -> lname l <> name) ->
  change_location_1way fuel name m dir e = Ok (e, false).
Proof.
  intros I H. unfold change_location_1way. change (foldM (place_body fuel m dir name) (seq 0 (List.length (e_locationNames e))) (e, false) = Ok (e, false)).
  apply place_skip; [assumption|]. intros j Hj. apply in_seq in Hj. rewrite (st_names _ (i_struct _ I)), map_length in Hj.
  destruct (nth_error_ex (e_locations e) j) as [lj Lj]; [lia|]. exists lj. split; [assumption|]. apply H. eapply nth_error_In; eauto.
Qed.

(** ** Reopening in one direction never ends *)

Lemma reopen_in_diverges i ni ls j ki fuel : forall e, Inv e -> e_locations e <> [] -> valid e ls -> nth_error ls j = Some ki ->
  change_location_loop fuel MReopen DIn i ni ls j e = Err OutOfFuel.
Proof.
  induction fuel as [|fuel IH]; intros e I Ne V Hj; cbn [change_location_loop]; rewrite Hj; [reflexivity|].
  destruct (endpoint_ex e ki (i_struct _ I)) as (k & ep & K & Ep); [apply V; eapply nth_error_In; eauto|].
  unfold link_of, endpoint_of, loc_of. rewrite K. cbn [of_option bind]. rewrite Ep. cbn [of_option bind].
  destruct (act_ok MReopen (l_name ep) ni e I Ne) as (e1 & b & A). pose proof (act_inv _ _ _ _ _ _ I A) as I1.
  destruct (act_spec _ _ _ _ _ _ I A) as (M & _). pose proof (mv_rest _ _ _ _ _ M) as Sb.
  pose proof (act_links _ _ _ _ _ _ A) as Le. cbn [act] in A. rewrite A. cbn [bind]. apply IH; auto.
  - intro N. apply Ne. apply sbl_len in Sb. rewrite N in Sb. destruct (e_locations e); [reflexivity|discriminate].
  - intros kj Hk. specialize (V kj Hk). lia.
Qed.

(** ** Closing a location that has a link to itself never ends *)

Lemma stuck_diverges i ls j ki fuel : forall e l k, Inv e -> distinct_names e -> nth_error (e_locations e) i = Some l ->
  nth_error ls j = Some ki -> nth_error (e_links e) ki = Some k -> k_endpoint k = i ->
  (forall q, In q (opens e i) -> to_place i q = false) ->
  change_location_loop fuel MClose DBoth i (l_name l) ls j e = Err OutOfFuel.
Proof.
  induction fuel as [|fuel IH]; intros e l k I D Hl Hj K Ek Hs; [cbn [change_location_loop]; now rewrite Hj|].
  rewrite (both_unfold _ _ _ _ _ _ _ ki Hj). unfold link_of, endpoint_of, loc_of. rewrite K. cbn [of_option bind].
  rewrite Ek, Hl. cbn [of_option bind]. unfold both_body.
  assert (Ne : e_locations e <> []) by (intro N; rewrite N in Hl; destruct i; discriminate).
  destruct (act_ok MClose (l_name l) (l_name l) e I Ne) as (e1 & b1 & A1). rewrite A1. cbn [bind].
  pose proof (act_inv _ _ _ _ _ _ I A1) as I1.
  destruct (act_place _ _ _ _ _ _ _ _ I D Hl Hl A1) as (M1 & _ & _). pose proof (mv_rest _ _ _ _ _ M1) as S1.
  pose proof (sbl_distinct _ _ S1 D) as D1. destruct (sbl_nth _ _ _ _ S1 Hl) as (l1 & Hl1 & _).
  pose proof (name_kept _ _ _ _ _ S1 Hl Hl1) as Nl1.
  assert (Ne1 : e_locations e1 <> []) by (intro N; rewrite N in Hl1; destruct i; discriminate).
  rewrite <- Nl1. destruct (act_ok MClose (l_name l1) (l_name l1) e1 I1 Ne1) as (e2 & b2 & A2). rewrite A2. cbn [bind].
  pose proof (act_inv _ _ _ _ _ _ I1 A2) as I2.
  destruct (act_place _ _ _ _ _ _ _ _ I1 D1 Hl1 Hl1 A2) as (M2 & B2 & _). pose proof (mv_rest _ _ _ _ _ M2) as S2.
  assert (F1 : forall q, In q (froms MClose e1 i) -> to_place i q = false).
  { intros q Hq. rewrite (mv_froms _ _ _ _ _ M1) in Hq. apply filter_In in Hq as [Hq _]. auto. }
  assert (b2 = false) as ->.
  { rewrite B2. destruct (existsb (to_place i) (froms MClose e1 i)) eqn:E; [|reflexivity].
    apply existsb_exists in E as (q & Hq & E). rewrite F1 in E; [discriminate|assumption]. }
  destruct (sbl_nth _ _ _ _ S2 Hl1) as (l2 & Hl2 & _). pose proof (name_kept _ _ _ _ _ S2 Hl1 Hl2) as Nl2. rewrite <- Nl2.
  assert (V : forall e e' b (s t : pystr), Inv e -> act MClose s t e = Ok (e', b) -> forall k, nth_error (e_links e) ki = Some k ->
     exists k', nth_error (e_links e') ki = Some k' /\ k_endpoint k' = k_endpoint k).
  { intros x x' b s t Ix Ax kx Kx. assert (W : valid x [ki]) by (intros z [<-|[]]; now apply nth_error_lt in Kx).
    pose proof (act_roads _ _ _ _ _ _ _ Ix W Ax) as Q. unfold roads in Q. cbn [flat_map] in Q. rewrite Kx in Q.
    destruct (nth_error (e_links x') ki) as [k'|]; [|discriminate]. exists k'. split; [reflexivity|]. cbn in Q. injection Q as _ Q. exact Q. }
  destruct (V _ _ _ _ _ I A1 _ K) as (k1 & K1 & E1). destruct (V _ _ _ _ _ I1 A2 _ K1) as (k2 & K2 & E2).
  apply (IH e2 l2 k2); auto; [exact (sbl_distinct _ _ S2 D1)|congruence|].
  intros q Hq. change (opens e2 i) with (froms MClose e2 i) in Hq. rewrite (mv_froms _ _ _ _ _ M2) in Hq.
  apply filter_In in Hq as [Hq _]. auto.
Qed.

Lemma loop_diverges i fuel : forall e l k, Inv e -> distinct_names e -> nth_error (e_locations e) i = Some l ->
  In k (opens e i) -> to_place i k = true ->
  change_location_loop fuel MClose DBoth i (l_name l) (l_links l) 0 e = Err OutOfFuel.
Proof.
  induction fuel as [|fuel IH]; intros e l k I D Hl Hk Tk;
    (destruct (l_links l) as [|ki r] eqn:El; [unfold opens in Hk; rewrite Hl, El in Hk; destruct Hk|]); [reflexivity|].
  assert (Hin : In ki (ids MClose l)) by (cbn; rewrite El; now left).
  destruct (froms_id MClose e i l ki I Hl Hin) as (k0 & K & Kin).
  destruct (endpoint_ex e ki (i_struct _ I)) as (k' & ep & K' & Ep); [now apply nth_error_lt in K|].
  assert (k' = k0) as -> by congruence. clear K'.
  rewrite (both_unfold _ _ _ _ _ _ _ ki) by reflexivity. unfold link_of, endpoint_of, loc_of. rewrite K. cbn [of_option bind].
  rewrite Ep. cbn [of_option bind]. unfold both_body.
  assert (Ne : e_locations e <> []) by (intro N; rewrite N in Hl; destruct i; discriminate).
  destruct (act_ok MClose (l_name ep) (l_name l) e I Ne) as (e1 & b1 & A1). rewrite A1. cbn [bind].
  pose proof (act_inv _ _ _ _ _ _ I A1) as I1.
  destruct (act_place _ _ _ _ _ _ _ _ I D Ep Hl A1) as (M1 & _ & _). pose proof (mv_rest _ _ _ _ _ M1) as S1.
  pose proof (sbl_distinct _ _ S1 D) as D1.
  destruct (sbl_nth _ _ _ _ S1 Hl) as (l1 & Hl1 & _). destruct (sbl_nth _ _ _ _ S1 Ep) as (ep1 & Ep1 & _).
  pose proof (name_kept _ _ _ _ _ S1 Hl Hl1) as Nl1. pose proof (name_kept _ _ _ _ _ S1 Ep Ep1) as Ne1.
  assert (Ne' : e_locations e1 <> []) by (intro N; rewrite N in Hl1; destruct i; discriminate).
  destruct (act_ok MClose (l_name l1) (l_name ep1) e1 I1 Ne') as (e2 & b2 & A2). rewrite <- Nl1, <- Ne1, A2. cbn [bind].
  pose proof (act_inv _ _ _ _ _ _ I1 A2) as I2.
  destruct (act_place _ _ _ _ _ _ _ _ I1 D1 Hl1 Ep1 A2) as (M2 & Hb2 & _). pose proof (mv_rest _ _ _ _ _ M2) as S2.
  pose proof (sbl_distinct _ _ S2 D1) as D2. destruct (sbl_nth _ _ _ _ S2 Hl1) as (l2 & Hl2 & _).
  pose proof (name_kept _ _ _ _ _ S2 Hl1 Hl2) as Nl2.
  destruct (Nat.eq_dec (k_endpoint k0) i) as [Ei|Np].
  - assert (F1 : forall q, In q (froms MClose e1 i) -> to_place i q = false).
    { rewrite Ei in M1. intros q Hq. rewrite (mv_froms _ _ _ _ _ M1) in Hq. apply filter_In in Hq as [_ Hq].
      unfold not in Hq. now apply Bool.negb_true_iff in Hq. }
    assert (b2 = false) as ->.
    { rewrite Hb2, Ei. destruct (existsb (to_place i) (froms MClose e1 i)) eqn:E; [|reflexivity].
      apply existsb_exists in E as (q & Hq & E). rewrite F1 in E; [discriminate|assumption]. }
    assert (V : forall e e' b (s t : pystr), Inv e -> act MClose s t e = Ok (e', b) -> forall k, nth_error (e_links e) ki = Some k ->
       exists k', nth_error (e_links e') ki = Some k' /\ k_endpoint k' = k_endpoint k).
    { intros x x' b s t Ix Ax kx Kx. assert (W : valid x [ki]) by (intros z [<-|[]]; now apply nth_error_lt in Kx).
      pose proof (act_roads _ _ _ _ _ _ _ Ix W Ax) as Q. unfold roads in Q. cbn [flat_map] in Q. rewrite Kx in Q.
      destruct (nth_error (e_links x') ki) as [k'|]; [|discriminate]. exists k'. split; [reflexivity|]. cbn in Q. injection Q as _ Q. exact Q. }
    destruct (V _ _ _ _ _ I A1 _ K) as (k1 & K1 & E1). destruct (V _ _ _ _ _ I1 A2 _ K1) as (k2 & K2 & E2).
    rewrite <- Nl2. apply (stuck_diverges i (ki :: r) 0 ki fuel e2 l2 k2); auto; [congruence|].
    intros q Hq. change (opens e2 i) with (froms MClose e2 i) in Hq. rewrite (mv_froms _ _ _ _ _ M2) in Hq.
    apply filter_In in Hq as [Hq _]. auto.
  - assert (F1 : froms MClose e1 i = froms MClose e i) by (now destruct (mv_others _ _ _ _ _ M1 i (not_eq_sym Np))).
    assert (b2 = true) as ->.
    { rewrite Hb2, F1. apply existsb_exists. exists (norm k0). split; [assumption|]. unfold to_place. apply Nat.eqb_refl. }
    unfold loc_of. rewrite Hl2. cbn [of_option bind ids]. rewrite <- Nl2. apply (IH e2 l2 k); auto.
    change (opens e2 i) with (froms MClose e2 i). rewrite (mv_froms _ _ _ _ _ M2), F1. apply filter_In. split; [exact Hk|].
    unfold not, to_place in *. apply Nat.eqb_eq in Tk. rewrite Tk. destruct (Nat.eqb_spec i (k_endpoint k0)); [congruence|reflexivity].
Qed.
